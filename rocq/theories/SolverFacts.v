(** The data of init_diophantine and the search of solve_index. *)
From Verif Require Import Py SliceTools Spec SliceFacts ExtgcdFacts DioFacts ElimFacts MatrixFacts.

(** * Linear combinations *)

(** x + sum_j t_j * zs_j, accumulated as in solve_index. *)
Fixpoint vcomb (x : list Z) (t : list Z) (zs : list (list Z)) : list Z :=
  match t, zs with
  | t0 :: t', z :: zs' => vcomb (axpy t0 z x) t' zs'
  | _, _ => x
  end.

Lemma axpy_length c z x : length z = length x -> length (axpy c z x) = length x.
Proof. intros H. unfold axpy. rewrite map2_length. lia. Qed.

Lemma vcomb_length x t zs : Forall (fun z => length z = length x) zs ->
  length (vcomb x t zs) = length x.
Proof.
  revert x t. induction zs as [|z zs IH]; intros x t H; destruct t as [|t0 t]; try reflexivity.
  inversion H as [|? ? Hz Hzs]; subst. cbn [vcomb]. rewrite IH.
  - now apply axpy_length.
  - now rewrite axpy_length.
Qed.

Lemma vcomb_nth x t zs i : Forall (fun z => length z = length x) zs -> (i < length x)%nat ->
  nth i (vcomb x t zs) 0 = nth i x 0 + zdot t (map (fun z => nth i z 0) zs).
Proof.
  revert x t. induction zs as [|z zs IH]; intros x t H Hi; destruct t as [|t0 t];
    cbn [vcomb map zdot]; try lia.
  inversion H as [|? ? Hz Hzs]; subst.
  rewrite IH by (rewrite axpy_length; auto).
  unfold axpy. rewrite map2_nth by lia. lia.
Qed.

Lemma nth_ext0 (l m : list Z) : length l = length m ->
  (forall i, (i < length l)%nat -> nth i l 0 = nth i m 0) -> l = m.
Proof. intros Hl H. exact (nth_ext l m 0 0 Hl H). Qed.

Lemma transpose_length n ds : length (transpose n ds) = n.
Proof. unfold transpose. now rewrite map_length, seq_length. Qed.

Lemma transpose_rows n ds : Forall (fun z => length z = length ds) (transpose n ds).
Proof. unfold transpose. apply Forall_map, Forall_forall. intros j _. now rewrite map_length. Qed.

Lemma transpose_col n ds i : (i < length ds)%nat -> length (nth i ds []) = n ->
  map (fun z => nth i z 0) (transpose n ds) = nth i ds [].
Proof.
  intros Hi Hn. unfold transpose. rewrite map_map.
  apply nth_ext0; [rewrite map_length, seq_length; lia|].
  intros j Hj. rewrite map_length, seq_length in Hj.
  set (f := fun x => _). rewrite nth_indep with (d' := f 0%nat) by (rewrite map_length, seq_length; lia).
  rewrite map_nth, seq_nth by lia. unfold f. cbn [Nat.add].
  set (g := fun r : list Z => nth j r 0).
  rewrite (nth_indep (map g ds) 0 (g [])) by (rewrite map_length; lia). now rewrite map_nth.
Qed.

Lemma vcomb_sol a0 rest e k t : rest <> [] -> good a0 rest ->
  init_dio_rec a0 rest = Ok (Some e) -> length t = length rest ->
  vcomb (zscale k (dio_z0 e)) t (transpose (length rest) (dio_ds e)) = sol a0 rest k t.
Proof.
  intros Hr Hg He Ht.
  destruct (init_dio_rec_ok a0 rest Hr Hg) as (e' & He' & Hd & Hz0 & Hds & Hrows & Hval).
  rewrite He in He'. injection He' as <-.
  rewrite <- Hval by assumption.
  assert (HF : Forall (fun z => length z = length (zscale k (dio_z0 e)))
                 (transpose (length rest) (dio_ds e))).
  { rewrite zscale_length, Hz0, <- Hds. apply transpose_rows. }
  apply nth_ext0.
  - rewrite vcomb_length by assumption. rewrite zscale_length, zip_with_length. lia.
  - rewrite vcomb_length by assumption. rewrite zscale_length. intros i Hi.
    rewrite vcomb_nth by (assumption || (rewrite zscale_length; assumption)).
    rewrite transpose_col, zip_with_nth_row by
      (lia || (rewrite Forall_forall in Hrows; apply Hrows, nth_In; lia)).
    rewrite zdot_comm. unfold zscale.
    rewrite nth_indep with (d' := k * 0) by (rewrite map_length; lia).
    rewrite (map_nth (fun z => k * z)). lia.
Qed.

(** * The search loop *)
Lemma accum_sound k zs D b s dt index r : accum k zs D b s dt index = Ok r ->
  exists t, length t = length zs /\ r = vcomb index t zs.
Proof.
  revert D b s dt index. induction zs as [|z zs IH]; intros D b s dt index H; cbn [accum] in H.
  - injection H as <-. exists []. auto.
  - destruct D as [|Di D]; [discriminate|]. destruct b as [|bi b]; [discriminate|].
    destruct dt as [|di dt]; [discriminate|].
    destruct s as [[|si s]|]; [discriminate| |]; unfold pydiv in H;
      destruct (Di =? 0); try discriminate; cbn [bind] in H;
      destruct (IH _ _ _ _ _ H) as (t & Ht & ->).
    + exists ((bi * k + si) / Di + di :: t). cbn [length vcomb]. split; [lia|reflexivity].
    + exists (bi * k / Di + di :: t). cbn [length vcomb]. split; [lia|reflexivity].
Qed.

(** the parameter vector tried for [dt] *)
Fixpoint tparams (k : Z) (D b s dt : list Z) : list Z :=
  match D, b, s, dt with
  | Di :: D', bi :: b', si :: s', di :: dt' => ((bi * k + si) / Di + di) :: tparams k D' b' s' dt'
  | _, _, _, _ => []
  end.

Lemma accum_complete k zs D b s dt index :
  length D = length zs -> length b = length zs -> length s = length zs ->
  length dt = length zs -> Forall (fun d => 0 < d) D ->
  accum k zs D b (Some s) dt index = Ok (vcomb index (tparams k D b s dt) zs).
Proof.
  revert D b s dt index.
  induction zs as [|z zs IH]; intros D b s dt index HD Hb Hs Hdt HP.
  - cbn [accum]. destruct D; [|discriminate]. reflexivity.
  - destruct D as [|Di D]; [discriminate|]. destruct b as [|bi b]; [discriminate|].
    destruct s as [|si s]; [discriminate|]. destruct dt as [|di dt]; [discriminate|].
    cbn [length] in *. inversion HP as [|? ? HP0 HPs]; subst.
    cbn [accum tparams vcomb]. unfold pydiv. replace (Di =? 0) with false by lia. cbn [bind].
    apply IH; auto; lia.
Qed.

Lemma in_shape_true index shape : length index = length shape ->
  in_shape index shape = Ok true <-> in_box index shape.
Proof.
  revert index. induction shape as [|m sh IH]; intros index Hl; destruct index as [|i ix];
    try discriminate; cbn [in_shape].
  - split; auto. constructor.
  - cbn in Hl. destruct ((0 <=? i) && (i <? m)) eqn:E.
    + rewrite IH by lia. split; intros H; [constructor; [lia|assumption]|].
      now inversion H.
    + split; intros H; [discriminate|]. inversion H; subst. lia.
Qed.

Lemma in_shape_total index shape : length index = length shape ->
  exists b, in_shape index shape = Ok b.
Proof.
  revert index. induction shape as [|m sh IH]; intros index Hl; destruct index as [|i ix];
    try discriminate; cbn [in_shape]; [eauto|].
  cbn in Hl. destruct ((0 <=? i) && (i <? m)); eauto.
Qed.

Lemma start_index k z0 : axpy k z0 (map (fun _ => 0) z0) = zscale k z0.
Proof.
  induction z0 as [|z z0 IH]; [reflexivity|].
  unfold axpy, zscale in *. cbn [map map2]. rewrite IH. f_equal. lia.
Qed.

Lemma try_dts_sound k sd shape dts r : try_dts k sd shape dts = Ok (Some r) ->
  exists t, length t = length (sd_zs sd)
    /\ r = vcomb (zscale k (sd_z0 sd)) t (sd_zs sd)
    /\ in_shape r shape = Ok true.
Proof.
  induction dts as [|dt dts IH]; cbn [try_dts]; [discriminate|].
  rewrite start_index.
  destruct (accum _ _ _ _ _ _ _) as [ix|] eqn:E; cbn [bind]; [|discriminate].
  destruct (in_shape ix shape) as [[|]|] eqn:E2; cbn [bind]; try discriminate.
  - intros H. injection H as <-. destruct (accum_sound _ _ _ _ _ _ _ _ E) as (t & Ht & ->).
    eauto.
  - exact IH.
Qed.

Lemma In_cart i shape : In i (cart shape) <-> in_box i shape.
Proof.
  revert i. induction shape as [|n sh IH]; intros i; cbn [cart].
  - split; [intros [<-|[]]; constructor|]. intros H. inversion H. now left.
  - rewrite in_flat_map. split.
    + intros (x & Hx & Hi). apply in_map_iff in Hi. destruct Hi as (j & <- & Hj).
      apply In_zseq in Hx. constructor; [lia|]. now apply IH.
    + intros H. inversion H as [|x m j sh' Hx Hj]; subst.
      exists x. split; [now apply In_zseq|]. apply in_map. now apply IH.
Qed.

(** When every candidate can be computed, the loop fails only if all candidates
    are out of the box. *)
Lemma try_dts_complete k sd s shape dts : sd_s sd = Some s ->
  length (sd_D sd) = length (sd_zs sd) -> length (sd_b sd) = length (sd_zs sd) ->
  length s = length (sd_zs sd) -> Forall (fun d => 0 < d) (sd_D sd) ->
  Forall (fun z => length z = length (sd_z0 sd)) (sd_zs sd) ->
  length (sd_z0 sd) = length shape ->
  Forall (fun dt => length dt = length (sd_zs sd)) dts ->
  exists r, try_dts k sd shape dts = Ok r
    /\ (r = None -> forall dt, In dt dts ->
        ~ in_box (vcomb (zscale k (sd_z0 sd)) (tparams k (sd_D sd) (sd_b sd) s dt) (sd_zs sd)) shape).
Proof.
  intros Es HD Hb Hs HP Hz Hsh HF.
  induction HF as [|dt dts Hdt HF IH]; cbn [try_dts].
  - exists None. split; [reflexivity|]. intros _ dt [].
  - rewrite start_index, Es, accum_complete by assumption. cbn [bind].
    set (ix := vcomb _ _ _) in *.
    assert (Hl : length ix = length shape).
    { unfold ix. rewrite vcomb_length; rewrite zscale_length; assumption. }
    destruct (in_shape_total ix shape Hl) as [bb Eb]. rewrite Eb. cbn [bind].
    destruct bb.
    + exists (Some ix). split; [reflexivity|]. discriminate.
    + destruct IH as (r & Er & Hr). exists r. split; [exact Er|].
      intros Hn dt' [<-|Hin]; [|now apply Hr].
      intros Hbox. apply in_shape_true in Hbox; [|exact Hl].
      change (vcomb (zscale k (sd_z0 sd)) (tparams k (sd_D sd) (sd_b sd) s dt) (sd_zs sd))
        with ix in Hbox. congruence.
Qed.

(** * The data *)
Lemma norm_row_spec has d b s : d <> 0 -> (has = false -> s = 0) ->
  let '(d', b', s') := norm_row has d b s in
  0 < d' /\ exists g, g <> 0 /\ d = g * d' /\ b = g * b' /\ s = g * s'.
Proof.
  intros Hd Hs. unfold norm_row.
  destruct (extgcd d b) as [[g1 x1] y1] eqn:E1. cbn [fst].
  destruct (extgcd_spec _ _ _ _ _ E1) as (_ & D1 & D2 & _ & S1 & _).
  specialize (S1 Hd).
  set (g := if has then fst (fst (extgcd g1 s)) else g1).
  assert (Hg : 0 < d * g /\ (g | d) /\ (g | b) /\ (g | s)).
  { unfold g. destruct has.
    - destruct (extgcd g1 s) as [[g2 x2] y2] eqn:E2. cbn [fst].
      destruct (extgcd_spec _ _ _ _ _ E2) as (_ & F1 & F2 & _ & S2 & _).
      assert (0 < g1 * g2) by (apply S2; nia).
      split; [clear - S1 H; nia|].
      split; [exact (Z.divide_trans _ _ _ F1 D1)|].
      split; [exact (Z.divide_trans _ _ _ F1 D2)|exact F2].
    - rewrite Hs by reflexivity. auto using Z.divide_0_r. }
  clearbody g. destruct Hg as (Hp & [q1 H1] & [q2 H2] & [q3 H3]).
  assert (g <> 0) by nia.
  destruct (g =? 1) eqn:Eg.
  - assert (g = 1) by lia. subst g. split; [nia|]. exists 1. repeat split; lia.
  - subst d b s. rewrite !Z.div_mul by assumption. split; [nia|]. exists g. repeat split; lia.
Qed.

(** Facts about the data for at least two nonzero strides. *)
Record sd_ok (a0 : Z) (rest : list Z) (shape : list Z) (sd : soldata) (s : list Z) : Prop := {
  so_d : sd_d sd = gall a0 rest;
  so_s : sd_s sd = Some s;
  so_z0 : length (sd_z0 sd) = S (length rest);
  so_zs : length (sd_zs sd) = length rest;
  so_zrows : Forall (fun z => length z = length (sd_z0 sd)) (sd_zs sd);
  so_D : length (sd_D sd) = length rest;
  so_b : length (sd_b sd) = length rest;
  so_slen : length s = length rest;
  so_pos : Forall (fun d => 0 < d) (sd_D sd);
  so_sol : forall k t, length t = length rest ->
     vcomb (zscale k (sd_z0 sd)) t (sd_zs sd) = sol a0 rest k t;
  so_vertex : forall x kap rho, length x = S (length rest) ->
     zdot (a0 :: rest) x = gall a0 rest * kap ->
     (forall i, (1 <= i <= length rest)%nat -> nth i x 0 = (nth i shape 0 - 1) * rho) ->
     forall i, (i < length rest)%nat ->
       nth i (sd_D sd) 0 * nth i (par a0 rest x) 0
       = nth i (sd_b sd) 0 * kap + nth i s 0 * rho }.

Lemma nth_map_seq {A} (f : nat -> A) (d : A) n i : (i < n)%nat ->
  nth i (map f (seq 0 n)) d = f i.
Proof.
  intros H. rewrite nth_indep with (d' := f 0%nat) by (rewrite map_length, seq_length; lia).
  now rewrite map_nth, seq_nth by lia.
Qed.

Lemma init_diophantine_ok a0 rest shape :
  Forall (fun a => a <> 0) (a0 :: rest) -> rest <> [] ->
  (length shape >= S (length rest))%nat ->
  exists sd s, init_diophantine (a0 :: rest) (Some shape) = Ok sd /\ sd_ok a0 rest shape sd s.
Proof.
  intros Ha Hr Hsh.
  assert (Ha0 : a0 <> 0) by (now inversion Ha).
  destruct (good_nonzero a0 rest Ha0) as [Hg Hgall].
  destruct (init_dio_rec_ok a0 rest Hr Hg) as (e & He & Hd & Hz0 & Hds & Hrows & Hval).
  destruct (elim_matrix_ok a0 rest e (Some shape) Ha Hr He) as (A' & EA & Hwf & Hdiag & Hker).
  destruct rest as [|a1 r]; [congruence|]. cbn [init_diophantine].
  rewrite He. cbn [bind].
  set (N := length (a0 :: a1 :: r)).
  replace (Nat.ltb (length shape) N) with false by (symmetry; apply Nat.ltb_ge; exact Hsh).
  cbn [bind].
  set (rest := a1 :: r) in *.
  change (S (length rest)) with N in *.
  assert (HN : N = S (length rest)) by reflexivity.
  replace (N - 1)%nat with (length rest) by (unfold N; cbn [length rest]; lia).
  rewrite EA. cbn [bind].
  set (f := fun i => norm_row true _ _ _).
  eexists. exists (map snd (map f (seq 0 (length rest)))). split; [reflexivity|].
  assert (Hf : forall i, (i < length rest)%nat ->
     0 < fst (fst (f i)) /\ exists g, g <> 0 /\ ent A' i i = g * fst (fst (f i))
        /\ ent A' i (2 * N) = g * snd (fst (f i)) /\ ent A' i (2 * N + 1) = g * snd (f i)).
  { intros i Hi. pose proof (norm_row_spec true (ent A' i i) (ent A' i (2 * N)) (ent A' i (2 * N + 1))) as H.
    change (norm_row true (ent A' i i) (ent A' i (2 * N)) (ent A' i (2 * N + 1))) with (f i) in H.
    destruct (f i) as [[d' b'] s']. cbn [fst snd]. apply H.
    - apply Hdiag. unfold N. cbn [length]. fold rest. lia.
    - discriminate. }
  constructor; cbn [sd_d sd_z0 sd_zs sd_D sd_b sd_s]; rewrite ?map_length, ?seq_length; auto.
  - apply transpose_length.
  - rewrite Hz0, <- Hds. apply transpose_rows.
  - rewrite map_map. apply Forall_map, Forall_forall. intros i Hi. apply in_seq in Hi.
    apply Hf. lia.
  - intros k t Ht. now apply vcomb_sol.
  - intros x kap rho Hx Hdot Hxs i Hi.
    rewrite !map_map.
    rewrite (nth_map_seq (fun x => fst (fst (f x)))), (nth_map_seq (fun x => snd (fst (f x)))),
      (nth_map_seq (fun x => snd (f x))) by assumption.
    destruct (Hf i Hi) as (_ & g & Hg0 & G1 & G2 & G3).
    set (t := par a0 rest x).
    assert (Ht : length t = length rest) by apply par_length.
    assert (Esol : sol a0 rest kap t = x) by (apply sol_par; auto).
    set (sl := map Z.opp x ++ [nth 0 x 0 - (nth 0 shape 0 - 1) * rho]).
    assert (Hsl : length sl = S N).
    { unfold sl. rewrite app_length, map_length. cbn [length]. unfold N. cbn [length]. fold rest. lia. }
    assert (Hrow : forall k, (k < N)%nat ->
              zdot (nth k (dio_ds e) []) t = nth k x 0 - nth k (dio_z0 e) 0 * kap).
    { intros k Hk. rewrite <- Esol, <- Hval by assumption.
      rewrite zip_with_nth_row by lia. lia. }
    assert (Hzero : forall k, (k < 2 * N)%nat ->
       zdot (row A' k) (t ++ sl ++ lastv (Some shape) (- kap) (- rho)) = 0).
    { apply Hker. intros k Hk. destruct (Nat.ltb k N) eqn:EkN.
      - apply Nat.ltb_lt in EkN.
        rewrite (matrix_dot_lo N (length rest)); auto.
        rewrite Hrow by assumption. unfold sl. rewrite app_nth1 by (rewrite map_length; lia).
        rewrite (nth_indep (map Z.opp x) 0 (Z.opp 0)) by (rewrite map_length; lia).
        rewrite map_nth. lia.
      - apply Nat.ltb_ge in EkN.
        replace k with (N + (k - N))%nat by lia.
        rewrite (matrix_dot_hi N (length rest)); auto; [|lia].
        rewrite Hrow by lia. cbn [upper].
        destruct (Nat.eq_dec k N) as [->|Hne].
        + rewrite Nat.sub_diag, Nat.add_0_r. unfold sl.
          rewrite app_nth2 by (rewrite map_length; lia).
          rewrite map_length. replace (N - length x)%nat with 0%nat by lia. cbn [nth]. lia.
        + rewrite (nth_overflow sl) by lia.
          rewrite (Hxs (k - N)%nat) by lia. lia. }
    specialize (Hzero i ltac:(lia)).
    rewrite (diag_row (2 * N) (ncols N (Some shape))) in Hzero; auto.
    2:{ unfold ncols. lia. }
    2:{ rewrite !app_length. cbn [lastv length]. unfold ncols. lia. }
    2:{ lia. }
    replace (ncols N (Some shape) - 2 * N)%nat with 2%nat in Hzero by (unfold ncols; lia).
    cbn [zsum] in Hzero.
    rewrite app_nth1 in Hzero by lia.
    rewrite app_nth2 in Hzero by lia. rewrite app_nth2 in Hzero by lia.
    rewrite app_nth2 in Hzero by lia. rewrite app_nth2 in Hzero by lia.
    replace (2 * N + 0 - length t - length sl)%nat with 0%nat in Hzero by lia.
    replace (2 * N + 1 - length t - length sl)%nat with 1%nat in Hzero by lia.
    rewrite Nat.add_0_r in Hzero. cbn [lastv nth] in Hzero.
    rewrite G1, G2, G3 in Hzero.
    clear - Hzero Hg0. set (T := nth i t 0) in *. clearbody T.
    apply (Z.mul_reg_l _ _ g Hg0). lia.
Qed.

(** C12: the solver on strides with zeros.  C42: which FlatCOO arrays with an
    empty dimension become COO arrays. *)
From Coq Require Import Sorting.Sorted Permutation ZifyBool.
From Verif Require Import Py SliceTools Basics Storage Spec ExtgcdFacts DioFacts ElimFacts SliceFacts IndexFacts
  CompressFacts ReduceFacts SolverFacts SolveFacts Repr ReprFacts ViewFacts BuildFacts SparseFacts
  ConvFacts FromFacts DMFacts ReadFacts MapFacts ChainFacts WriteFacts EffectFacts EqFacts PropRead PropWrite PropEq PropEdge PropSolver.
From Coq Require Import List.

(** * The elimination when the first coefficient is 0 *)

(** Rows other than [0] and [N] have 0 in columns 0 and n. *)
Definition apart (N n : nat) (A : list (list Z)) : Prop :=
  forall k, (k <> 0)%nat -> k <> N -> ent A k 0 = 0 /\ ent A k n = 0.

Lemma nth_map2 (f : Z -> Z -> Z) a b j : f 0 0 = 0 ->
  nth j a 0 = 0 -> nth j b 0 = 0 -> nth j (map2 f a b) 0 = 0.
Proof.
  intros F. revert b j. induction a as [|x a IH]; intros [|y b] j Ha Hb; try (destruct j; reflexivity).
  destruct j as [|j]; cbn [map2 nth] in *; [subst; exact F|now apply IH].
Qed.

Lemma elim_step_apart N n A i A' : (i < N)%nat -> apart N n A -> elim_step i A = Ok A' -> apart N n A'.
Proof.
  intros Hi HA. unfold elim_step. destruct (nth i (nth i A []) 0 =? 0); [discriminate|]. intros H. injection H as <-.
  intros k K0 KN. unfold ent, row. destruct (Nat.lt_ge_cases k (length A)) as [Hk|Hk].
  2: { rewrite (nth_overflow (map _ (seq 0 (length A)))) by (rewrite map_length, seq_length; lia). now destruct n. }
  rewrite nth_map_seq by exact Hk. destruct (HA k K0 KN) as [H0 Hn]. unfold ent, row in H0, Hn.
  destruct (Nat.eqb i k); [auto|]. destruct (nth i (nth k A []) 0 =? 0) eqn:Ei; [auto|].
  destruct i as [|i]; [rewrite H0 in Ei; discriminate|].
  destruct (HA (S i) ltac:(lia) ltac:(lia)) as [G0 Gn]. unfold ent, row in G0, Gn.
  split; apply nth_map2; auto; lia.
Qed.

Lemma elim_steps_apart N n : (0 < n)%nat -> forall is A, (forall i, In i is -> (i < N)%nat) -> In n is -> apart N n A ->
  elim_steps is A = Raise AssertionError.
Proof.
  intros Hn. induction is as [|i is IH]; intros A Hi Hin HA; [contradiction|]. cbn [elim_steps].
  destruct (elim_step i A) as [A'|e] eqn:E; cbn [bind].
  - destruct (Nat.eq_dec i n) as [->|Hne].
    + exfalso. destruct (HA n ltac:(lia)) as [_ H]; [pose proof (Hi n (or_introl eq_refl)); lia|].
      unfold elim_step in E. unfold ent, row in H. rewrite H in E. discriminate.
    + apply IH; [intros; apply Hi; now right| |].
      * destruct Hin as [Hin|Hin]; [congruence|exact Hin].
      * eapply elim_step_apart; [apply Hi; now left|exact HA|exact E].
  - unfold elim_step in E. destruct (nth i (nth i A []) 0 =? 0); [|discriminate]. congruence.
Qed.

Lemma elim_steps_app is js A : elim_steps (is ++ js) A = (A' <- elim_steps is A ;; elim_steps js A').
Proof.
  revert A. induction is as [|i is IH]; intros A; [reflexivity|]. cbn [app elim_steps].
  destruct (elim_step i A); cbn [bind]; auto.
Qed.

Lemma init_dio_zero a1 r : a1 <> 0 ->
  exists e, init_dio_rec 0 (a1 :: r) = Ok (Some e)
    /\ length (dio_ds e) = S (S (length r)) /\ Forall (fun row => length row = S (length r)) (dio_ds e)
    /\ forall k, (k <> 0)%nat -> nth 0 (nth k (dio_ds e) []) 0 = 0.
Proof.
  intros Ha. assert (Hg : good 0 (a1 :: r)).
  { cbn [good]. unfold eg. rewrite extgcd_eq. cbn [Z.eqb fst]. split; [exact Ha|]. now apply good_nonzero. }
  destruct (init_dio_rec_ok 0 (a1 :: r) ltac:(discriminate) Hg) as (e & He & _ & _ & Hl & Hf & _).
  exists e. split; [exact He|]. split; [exact Hl|]. split; [exact Hf|]. intros k Hk.
  cbn [init_dio_rec] in He. rewrite extgcd_eq in He. cbn [Z.eqb] in He. unfold pydiv in He.
  replace (a1 =? 0) with false in He by lia. cbn [bind] in He.
  destruct (init_dio_rec a1 r) as [next|] eqn:En; cbn [bind] in He; [|discriminate].
  destruct (match next with Some e0 => _ | None => _ end) as [[dl zs] z0]. injection He as <-. cbn [dio_ds].
  destruct k as [|[|k]]; [congruence|reflexivity|]. cbn [nth].
  destruct (Nat.lt_ge_cases k (length (map (cons 0) (tl zs)))) as [H|H].
  - rewrite (nth_indep _ [] (cons 0 [])) by exact H. now rewrite (map_nth (cons 0)).
  - now rewrite (nth_overflow _ _ H).
Qed.

Lemma nth_app_len {A} (l m : list A) d n : length l = n -> nth n (l ++ m) d = nth 0 m d.
Proof. intros <-. rewrite app_nth2 by lia. now rewrite Nat.sub_diag. Qed.

Lemma unit_row_first i len m : (i <> 0)%nat -> (0 < len)%nat -> nth 0 (unit_row i len ++ m) 0 = 0.
Proof. intros Hi Hl. destruct len; [lia|]. cbn. destruct i; [congruence|reflexivity]. Qed.

(** A shape, if there is one, has a size for each of [n] unknowns. *)
Definition sizes_for (n : nat) (shape : option (list Z)) : Prop :=
  match shape with None => True | Some sh => length sh = n end.
Lemma sizes_checked n shape : sizes_for n shape ->
  (match shape with None => Ok tt | Some sh => if Nat.ltb (length sh) n then Raise IndexError else Ok tt end) = Ok tt.
Proof. destruct shape as [sh|]; [|reflexivity]. cbn [sizes_for]. intros ->. now rewrite Nat.ltb_irrefl. Qed.

Lemma init_diophantine_zero a1 r shape : a1 <> 0 -> sizes_for (S (S (length r))) shape ->
  init_diophantine (0 :: a1 :: r) shape = Raise AssertionError.
Proof.
  intros Ha Hl. destruct (init_dio_zero a1 r Ha) as (e & He & Hd & Hf & H0). cbn [init_diophantine]. rewrite He. cbn [bind].
  cbn [length]. rewrite (sizes_checked _ _ Hl). cbn [bind].
  set (N := S (S (length r))) in *. replace (N - 1)%nat with (S (length r)) by (unfold N; lia). set (n := S (length r)) in *.
  replace (seq 0 (2 * N)) with (seq 0 N ++ seq N N) by (rewrite <- seq_app; f_equal; lia).
  rewrite elim_steps_app. rewrite (elim_steps_apart N n); [reflexivity|unfold n; lia| | |].
  - intros i Hi. apply in_seq in Hi. lia.
  - apply in_seq. unfold N, n. lia.
  - assert (Hrow : forall k, (k < N)%nat -> length (nth k (dio_ds e) []) = n).
    { intros k Hk. rewrite Forall_forall in Hf. apply Hf. apply nth_In. lia. }
    intros k K0 KN. unfold ent, row, dio_matrix. destruct (Nat.lt_ge_cases k N) as [Hk|Hk].
    + rewrite app_nth1 by (rewrite map_length, seq_length; lia). rewrite nth_map_seq by exact Hk.
      split; [rewrite app_nth1 by (rewrite (Hrow k Hk); unfold n; lia); now apply H0|].
      rewrite nth_app_len by (now apply Hrow). apply unit_row_first; unfold N, n; lia.
    + rewrite app_nth2 by (rewrite map_length, seq_length; lia). rewrite map_length, seq_length.
      destruct (Nat.lt_ge_cases (k - N) N) as [Hk2|Hk2].
      2: { rewrite (nth_overflow (map _ _)) by (rewrite map_length, seq_length; lia). split; [reflexivity|now destruct n]. }
      rewrite nth_map_seq by exact Hk2.
      split; [|rewrite nth_app_len by (rewrite map_length; now apply Hrow); apply unit_row_first; unfold N, n; lia].
      rewrite app_nth1 by (rewrite map_length, (Hrow _ Hk2); unfold n; lia). 
      transitivity (nth 0 (map Z.opp (nth (k - N) (dio_ds e) [])) (Z.opp 0)); [reflexivity|].
      rewrite map_nth, H0 by lia. reflexivity.
Qed.

(** * The elimination when a later coefficient is 0 *)
Lemma par_zero r : forall a0 n, par a0 r (repeat 0 n) = repeat 0 (length r).
Proof.
  induction r as [|a1 r IH]; intros a0 n; cbn [par]; [reflexivity|]. destruct (extgcd a0 a1) as [[d x0] y0].
  assert (E : hd 0 (repeat 0 n) = 0) by now destruct n. assert (E2 : hd 0 (tl (repeat 0 n)) = 0) by now destruct n as [|[|n]].
  rewrite E, E2. cbn [length repeat]. f_equal; [lia|].
  replace (a0 / d * 0 + a1 / d * 0) with 0 by lia.
  replace (0 :: tl (tl (repeat 0 n))) with (repeat 0 (S (n - 2))); [apply IH|].
  destruct n as [|[|n]]; cbn; rewrite ?Nat.sub_0_r; reflexivity.
Qed.

(** The vector with 1 at [k]. *)
Definition unit_at (k m : nat) : list Z := repeat 0 k ++ 1 :: repeat 0 m.

Lemma par_unit r : forall a0 k m, good a0 r -> length r = (S k + m)%nat -> nth k r 0 = 0 ->
  exists x0, x0 <> 0 /\ par a0 r (unit_at (S k) m) = repeat 0 k ++ x0 :: repeat 0 m.
Proof.
  induction r as [|a1 r IH]; intros a0 k m Hg Hl Hk; [discriminate|]. cbn [good] in Hg. destruct Hg as [Hd Hg]. unfold eg in *.
  cbn [length] in Hl. cbn [par]. destruct (extgcd a0 a1) as [[d x0] y0] eqn:E. cbn [fst] in *.
  destruct (eg_quotients _ _ _ _ _ E Hd) as (E0 & E1 & EB). destruct k as [|k].
  - cbn [nth] in Hk. subst a1. cbn [unit_at repeat app hd tl]. exists x0. split.
    + rewrite Z.div_0_l in EB by exact Hd. nia.
    + rewrite Z.div_0_l by exact Hd. f_equal; [lia|].
      replace (a0 / d * 0 + 0 * 1) with 0 by lia. change (0 :: repeat 0 m) with (repeat 0 (S m)). rewrite par_zero. f_equal. lia.
  - cbn [nth] in Hk. destruct (IH d k m Hg ltac:(lia) Hk) as (x1 & Hx & Ex). exists x1. split; [exact Hx|].
    unfold unit_at in *. cbn [repeat app hd tl] in *. replace (a0 / d * 0 + a1 / d * 0) with 0 by lia. rewrite Ex. f_equal. lia.
Qed.

Lemma zdot_at row k x m : zdot row (repeat 0 k ++ x :: repeat 0 m) = nth k row 0 * x.
Proof.
  revert k. induction row as [|y row IH]; intros k; [now destruct k|]. destruct k as [|k]; cbn [repeat app zdot nth].
  - assert (Z0 : forall l n, zdot l (repeat 0 n) = 0).
    { induction l as [|z l IHl]; intros [|n]; cbn [repeat zdot]; auto. rewrite IHl. lia. }
    rewrite Z0. lia.
  - rewrite IH. lia.
Qed.

Lemma nth_zip_with {A B C} (f : A -> B -> C) da db dc : forall l m i, (i < length l)%nat -> (i < length m)%nat ->
  nth i (zip_with f l m) dc = f (nth i l da) (nth i m db).
Proof.
  induction l as [|x l IH]; intros [|y m] i Hl Hm; cbn [length] in *; try lia. destruct i as [|i]; cbn [zip_with nth]; [reflexivity|].
  apply IH; lia.
Qed.

(** Column [k] of the solutions is 0 in the rows up to [k]. *)
Lemma dio_column a0 rest e k : rest <> [] -> init_dio_rec a0 rest = Ok (Some e) -> (k < length rest)%nat -> nth k rest 0 = 0 ->
  forall i, (i <= k)%nat -> nth k (nth i (dio_ds e) []) 0 = 0.
Proof.
  intros Hr He Hk H0 i Hi. pose proof (init_dio_rec_inv _ _ _ He) as Hg.
  destruct (init_dio_rec_ok a0 rest Hr Hg) as (e' & He' & _ & Hz & Hd & _ & Hv). rewrite He in He'. injection He' as <-.
  set (m := (length rest - S k)%nat). destruct (par_unit rest a0 k m Hg ltac:(unfold m; lia) H0) as (x0 & Hx & Ex).
  assert (Hlu : length (unit_at (S k) m) = S (length rest)).
  { unfold unit_at. rewrite app_length. cbn [length]. rewrite !repeat_length. unfold m. lia. }
  assert (Hdot : zdot (a0 :: rest) (unit_at (S k) m) = gall a0 rest * 0).
  { unfold unit_at. rewrite zdot_at. cbn [nth]. lia. }
  pose proof (sol_par a0 rest 0 (unit_at (S k) m) Hg (good_gall_nonzero _ _ Hr Hg) Hlu Hdot) as Es.
  rewrite Ex in Es. specialize (Hv 0 (repeat 0 k ++ x0 :: repeat 0 m)).
  rewrite <- Ex in Hv at 1. rewrite par_length in Hv. specialize (Hv eq_refl). rewrite Es in Hv.
  apply (f_equal (fun l => nth i l 0)) in Hv.
  rewrite (nth_zip_with _ 0 []) in Hv by lia. unfold row_value in Hv. rewrite zdot_at in Hv.
  unfold unit_at in Hv. rewrite app_nth1 in Hv by (rewrite repeat_length; lia). rewrite nth_repeat in Hv. nia.
Qed.

Lemma elim_steps_column c : forall n p A, (p <= c < p + n)%nat -> (forall r, (r <= c)%nat -> ent A r c = 0) ->
  elim_steps (seq p n) A = Raise AssertionError.
Proof.
  induction n as [|n IH]; intros p A Hp HA; [lia|]. cbn [seq elim_steps].
  destruct (elim_step p A) as [A'|e] eqn:E; cbn [bind].
  - destruct (Nat.eq_dec p c) as [->|Hne].
    + exfalso. specialize (HA c (le_n _)). unfold elim_step in E. unfold ent, row in HA. rewrite HA in E. discriminate.
    + apply IH; [lia|]. intros r Hr. unfold elim_step in E. destruct (nth p (nth p A []) 0 =? 0); [discriminate|]. injection E as <-.
      unfold ent, row. destruct (Nat.lt_ge_cases r (length A)) as [Hl|Hl].
      2: { rewrite (nth_overflow (map _ _)) by (rewrite map_length, seq_length; lia). now destruct c. }
      rewrite nth_map_seq by exact Hl. pose proof (HA r Hr) as G. pose proof (HA p ltac:(lia)) as G2. unfold ent, row in G, G2.
      destruct (Nat.eqb p r); [exact G|]. destruct (nth p (nth r A []) 0 =? 0); [exact G|]. apply nth_map2; auto; lia.
  - unfold elim_step in E. destruct (nth p (nth p A []) 0 =? 0); [|discriminate]. congruence.
Qed.

Lemma init_diophantine_later a0 rest shape k : (k < length rest)%nat -> nth k rest 0 = 0 -> good a0 rest ->
  sizes_for (S (length rest)) shape -> init_diophantine (a0 :: rest) shape = Raise AssertionError.
Proof.
  intros Hk H0 Hg Hl. assert (Hr : rest <> []) by (destruct rest; [cbn in Hk; lia|discriminate]).
  destruct (init_dio_rec_ok a0 rest Hr Hg) as (e & He & _ & _ & Hd & Hf & _).
  pose proof (dio_column a0 rest e k Hr He Hk H0) as Hc.
  destruct rest as [|a1 r]; [congruence|]. cbn [init_diophantine]. rewrite He. cbn [bind].
  change (length (a0 :: a1 :: r)) with (S (length (a1 :: r))). rewrite (sizes_checked _ _ Hl). cbn [bind].
  set (N := S (length (a1 :: r))) in *. replace (N - 1)%nat with (length (a1 :: r)) by (unfold N; lia). set (n := length (a1 :: r)) in *.
  rewrite (elim_steps_column k); [reflexivity|unfold N; lia|].
  intros i Hi. unfold ent, row, dio_matrix. rewrite app_nth1 by (rewrite map_length, seq_length; unfold N; lia).
  rewrite nth_map_seq by (unfold N; lia). rewrite app_nth1; [now apply Hc|].
  rewrite Forall_forall in Hf. rewrite (Hf (nth i (dio_ds e) [])); [exact Hk|]. apply nth_In. unfold N in *. lia.
Qed.

(** * C12 *)
(** For two or more strides the solver works exactly when no stride is 0; two
    zeros in front raise ZeroDivisionError, every other zero AssertionError. *)
Theorem C12_zero_strides : forall a0 a1 r shape pos,
  sizes_for (S (S (length r))) shape -> In 0 (a0 :: a1 :: r) ->
  let e := if (a0 =? 0) && (a1 =? 0) then ZeroDivisionError else AssertionError in
  init_diophantine (a0 :: a1 :: r) shape = Raise e
  /\ (forall sh, shape = Some sh -> solve_index pos sh (a0 :: a1 :: r) = Raise e)
  /\ diophantine (a0 :: a1 :: r) pos = Raise e.
Proof.
  intros a0 a1 r shape pos Hl H0 e.
  assert (K : forall shape, sizes_for (S (S (length r))) shape -> init_diophantine (a0 :: a1 :: r) shape = Raise e).
  { clear shape Hl. intros shape Hl. subst e. destruct (a0 =? 0) eqn:E0; cbn [andb].
    - apply Z.eqb_eq in E0. subst a0. destruct (a1 =? 0) eqn:E1; cbn [andb].
      + apply Z.eqb_eq in E1. subst a1. reflexivity.
      + apply init_diophantine_zero; [lia|exact Hl].
    - destruct H0 as [H0|H0]; [lia|]. destruct (In_nth _ _ 0 H0) as (k & Hk & Ek).
      apply (init_diophantine_later _ _ _ k); auto. apply good_nonzero. lia. }
  split; [now apply K|]. split.
  - intros sh ->. unfold solve_index. now rewrite K.
  - unfold diophantine. now rewrite K.
Qed.
Print Assumptions C12_zero_strides.
(** For a single stride 0 there is data, but no position can be solved. *)
Theorem C12_exactly : forall strides shape pos, strides <> [] -> length shape = length strides ->
  ((exists r, solve_index pos shape strides = Ok r) <-> Forall (fun a => a <> 0) strides)
  /\ ((exists r, diophantine strides pos = Ok r) <-> Forall (fun a => a <> 0) strides).
Proof.
  intros st sh pos Hne Hl. assert (D : Forall (fun a => a <> 0) st \/ In 0 st).
  { clear. induction st as [|a st IH]; [auto|]. destruct (Z.eq_dec a 0) as [->|Ha]; [right; now left|].
    destruct IH as [IH|IH]; [left; now constructor|right; now right]. }
  destruct D as [D|D].
  - split; (split; [auto|intros _]).
    + now apply (C12_solver_total st Hne D).
    + destruct (C11_diophantine_complete st pos Hne D) as (r & Er & _). eauto.
  - assert (N : ~ Forall (fun a => a <> 0) st).
    { intros F. rewrite Forall_forall in F. exact (F 0 D eq_refl). }
    destruct st as [|a0 [|a1 r]]; [congruence| |].
    + destruct D as [->|[]]. destruct sh as [|n [|]]; try discriminate Hl. split; (split; [intros [x Hx]; exfalso|tauto]).
      * unfold solve_index in Hx. cbn in Hx. discriminate Hx.
      * unfold diophantine in Hx. cbn in Hx. discriminate Hx.
    + pose proof (C12_zero_strides a0 a1 r (Some sh) pos Hl D) as (_ & K1 & K2). specialize (K1 sh eq_refl).
      split; (split; [intros [x Hx]; congruence|tauto]).
Qed.
Print Assumptions C12_exactly.
(** A single stride 0: the data can be had, using it divides by zero. *)
Theorem C12_single_zero : forall n pos,
  (exists sd, init_diophantine [0] (Some [n]) = Ok sd)
  /\ solve_index pos [n] [0] = Raise ZeroDivisionError /\ diophantine [0] pos = Raise ZeroDivisionError.
Proof. intros n pos. split; [eexists; reflexivity|]. split; reflexivity. Qed.
Print Assumptions C12_single_zero.

Example C12_zero_case : solve_index 3 [2; 3; 4] [5; 0; 1] = Raise AssertionError /\ solve_index 3 [2; 3; 4] [0; 0; 1] = Raise ZeroDivisionError.
Proof. vm_compute. split; reflexivity. Qed.

(** * Empty dimensions *)
Lemma product_zero l : In 0 l -> product l = 0.
Proof. induction l as [|x l IH]; intros H; [contradiction|]. destruct H as [H|H]; cbn [product]; [subst; lia|rewrite IH by exact H; lia]. Qed.
Lemma product_nonzero l : ~ In 0 l -> product l <> 0.
Proof. induction l as [|x l IH]; intros H; cbn [product]; [lia|]. cbn in H. assert (x <> 0) by auto. assert (product l <> 0) by auto. nia. Qed.

(** Which exception the search for the index of a position raises in an array
    with a later dimension of length 0. *)
Definition empty_error (sh : list Z) : exn :=
  if existsb (Z.eqb 0) (tl (tl sh)) then ZeroDivisionError else AssertionError.

Lemma existsb_zero l : existsb (Z.eqb 0) l = true <-> In 0 l.
Proof.
  rewrite existsb_exists. split; [intros (x & Hx & E); assert (x = 0) by lia; now subst|].
  intros H. exists 0. split; [exact H|reflexivity].
Qed.

Lemma init_empty sh : In 0 (tl sh) -> init_diophantine (make_strides sh) (Some sh) = Raise (empty_error sh).
Proof.
  destruct sh as [|n [|m sh]]; try contradiction. cbn [tl]. intros H. unfold empty_error. cbn [tl].
  cbn [make_strides]. rewrite (product_zero _ H).
  destruct (existsb (Z.eqb 0) sh) eqn:E.
  - apply existsb_zero in E. rewrite (product_zero _ E). reflexivity.
  - apply init_diophantine_zero; [|cbn [sizes_for length]; now rewrite make_strides_length].
    apply product_nonzero. intros G. apply existsb_zero in G. congruence.
Qed.

(** * FlatCOO to COO *)
Lemma flatcoo_iad_empty h sh f : In 0 (tl sh) -> flatcoo_iad h sh f = Raise (empty_error sh).
Proof. intros H. unfold flatcoo_iad. now rewrite init_empty. Qed.

(** A FlatCOO array with a dimension of length 0 other than the first cannot
    be converted to COO with the default arguments, nor can its elements be
    listed: ZeroDivisionError is raised if the dimension is the third or a later
    one, AssertionError if it is the second one alone. *)
Theorem C42_flatcoo_refuted : forall h sh f d, In 0 (tl sh) ->
  let e := if existsb (Z.eqb 0) (tl (tl sh)) then ZeroDivisionError else AssertionError in
  as_storage CCOO h (SFlatCOO sh f d) None = Raise e
  /\ elements h (SFlatCOO sh f d) = Raise e.
Proof.
  intros h sh f d H e. change e with (empty_error sh). clear e. split.
  - cbn [as_storage flat_fromobject]. unfold coo_fromobject. cbn [is_default fo_unspecified bind].
    unfold coo_of_flatcoo. now rewrite flatcoo_iad_empty.
  - unfold elements. cbn. now rewrite flatcoo_iad_empty.
Qed.
Print Assumptions C42_flatcoo_refuted.

(** All other FlatCOO arrays can: the result has the same elements. *)
Lemma flatcoo_iad_later h sh f d E : entries h (SFlatCOO sh f d) E -> ~ In 0 (tl sh) ->
  flatcoo_iad h sh f = Ok (numbered E).
Proof.
  intros HE H0. pose proof HE as (Hn & Hne & Ho & Hd & Hf & _). destruct sh as [|n sh]; [congruence|]. cbn [tl] in H0.
  assert (Hpos : positive sh).
  { inversion Hn as [|? ? _ Hs]; subst. unfold positive. apply Forall_forall. intros x Hx. rewrite Forall_forall in Hs.
    pose proof (Hs x Hx). assert (x <> 0) by (intros ->; contradiction). lia. }
  destruct (Z.eq_dec n 0) as [->|Hn0].
  - assert (E = []) as ->.
    { destruct E as [|e E]; [reflexivity|]. exfalso. pose proof (ordered_in_box _ _ 0%nat Ho ltac:(cbn; lia)) as Hb. cbn in Hb.
      inversion Hb as [|? ? ? ? Hx _]; subst. lia. }
    destruct Hf as (l & _ & _ & Hz & _). cbn in Hz. unfold flatcoo_iad. rewrite Hz.
    assert (Hi : exists sd, init_diophantine (make_strides (0 :: sh)) (Some (0 :: sh)) = Ok sd).
    { assert (N : Forall (fun a => a <> 0) (make_strides (0 :: sh))).
      { cbn [make_strides]. constructor; [now apply product_nonzero|now apply make_strides_nonzero]. }
      pose proof (make_strides_length (0 :: sh)) as L. destruct (make_strides (0 :: sh)) as [|a0 [|a1 r]]; [eexists; reflexivity|eexists; reflexivity|].
      destruct (init_diophantine_ok a0 (a1 :: r) (0 :: sh) N) as (sd & _ & E & _); [discriminate|rewrite <- L; cbn; lia|]. eauto. }
    destruct Hi as [sd ->]. reflexivity.
  - apply (flatcoo_iad_ok _ _ _ d); [exact HE|]. constructor; [|exact Hpos]. inversion Hn; lia.
Qed.

Theorem C42_flatcoo_to_coo_partial : forall h sh f d,
  valid h (SFlatCOO sh f d) -> ~ In 0 (tl sh) ->
  exists t h', as_storage CCOO h (SFlatCOO sh f d) None = Ok (t, h')
    /\ is_class CCOO t /\ unspecified_of t = bunspec d /\ valid h' t /\ extends h h'
    /\ same_elements h (SFlatCOO sh f d) h' t (bunspec d).
Proof.
  intros h sh f d [g (E & HE & Hg)] H0. pose proof HE as (Hn & Hne & Ho & Hd & Hf & _).
  assert (HC : exists ind d' h', coo_of_flatcoo h sh f d = Ok (SCOO sh ind d', h')
    /\ extends h h' /\ entries h' (SCOO sh ind d') E /\ bunspec d' = bunspec d).
  { unfold coo_of_flatcoo.
    rewrite (flatcoo_iad_later h sh f d E HE H0). cbn [bind]. rewrite numbered_fst, columns_column.
    destruct (strided_of_rows (map (fun k => column k E) (seq 0 (length sh))) (zlen E) h)
      as (t & Et & Hsh & Hst & Ha & Hu & Hh).
    { destruct sh; [congruence|discriminate]. } { apply columns_const. }
    rewrite Et. cbn [bind]. set (h1 := h ++ [map VInt (concat (map (fun k => column k E) (seq 0 (length sh))))]) in *.
    assert (Hd1 : holds h1 d (map snd E)) by (eapply holds_extends; [apply extends_alloc|exact Hd]).
    rewrite (buf_copy_ok h1 d _ None Hd1). cbn [new_unspec bind].
    rewrite zlen_map in Hsh. rewrite (zlen_map snd E).
    assert (Hls : zlen (seq 0 (length sh)) = zlen sh) by (unfold zlen; now rewrite seq_length).
    rewrite Hls in Hsh. unfold mk_coo. rewrite Hsh.
    change (pyget [zlen sh; zlen E] 1) with (@Ok Z (zlen E)). cbn [bind bsize].
    unfold assert_. rewrite Z.eqb_refl. cbn [bind]. rewrite map_conv_id.
    eexists _, _, _. split; [reflexivity|]. split; [eapply extends_trans; apply extends_alloc|].
    split; [|reflexivity].
    cbn [entries]. split; [exact Hn|]. split; [exact Hne|]. split; [exact Ho|].
    split; [apply holds_new_map|]. split; [exact Hsh|]. split; [exact Hst|].
    split; [eapply holds_extends; [apply extends_alloc|exact Hh]|].
    rewrite Ha. cbn [baddr]. unfold h1. rewrite length_app1. split; [lia|exact Hu]. }
  destruct HC as (ind & d' & h' & E1 & E2 & E3 & E4). exists (SCOO sh ind d'), h'.
  cbn [as_storage flat_fromobject]. unfold coo_fromobject. cbn [is_default fo_unspecified bind]. rewrite E1.
  split; [reflexivity|]. split; [exact I|]. split; [exact E4|].
  assert (Hr2 : repr h' (SCOO sh ind d') (fun i => conv_value (bunspec d) (bunspec d) (g i))).
  { exists E. split; [exact E3|]. cbn [shape_of unspecified_of] in *. intros i Hi. rewrite E4, conv_value_id. now apply Hg. }
  split; [eexists; exact Hr2|]. split; [exact E2|].
  apply (same_elements_conv h _ g); [exists E; split; assumption|reflexivity|exact Hr2].
Qed.
Print Assumptions C42_flatcoo_to_coo_partial.

(** Lists of no rows, of rows of no elements, and of rows of rows. *)
Example C42_flatcoo_case :
  let conv v := '(s, h) <- fromobject CFlatCOO [] (SrcSeq v) fo_default ;;
                '(t, _) <- as_storage CCOO h s None ;; Ok (shape_of t) in
  conv (VSeq []) = Ok [0]
  /\ conv (VSeq [VSeq []; VSeq []]) = Raise AssertionError
  /\ conv (VSeq [VSeq [VSeq []]]) = Raise ZeroDivisionError.
Proof. repeat split; vm_compute; reflexivity. Qed.

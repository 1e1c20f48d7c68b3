(** Arguments of DM.fromobject: which mappings are accepted and rejected. *)
From Coq Require Import Sorting.Sorted Permutation ZifyBool.
From Verif Require Import Py SliceTools Basics Storage Spec SliceFacts IndexFacts
  CompressFacts ReduceFacts SolverFacts SolveFacts Repr ReprFacts ViewFacts BuildFacts SparseFacts
  ConvFacts FromFacts DMFacts.

Lemma bind_ok {A B} (m : res A) (k : A -> res B) y : bind m k = Ok y -> exists x, m = Ok x /\ k x = Ok y.
Proof. destruct m; cbn; [eauto|discriminate]. Qed.

Lemma assert_ok b u : assert_ b = Ok u -> b = true.
Proof. unfold assert_. destruct b; [reflexivity|discriminate]. Qed.

Lemma pyslice_firstn {A} (l : list A) a b : 0 <= a <= b ->
  pyslice_list l a b = firstn (Z.to_nat (b - a)) (skipn (Z.to_nat a) l).
Proof.
  intros H. unfold pyslice_list, pyclamp. replace (a <? 0) with false by lia. replace (b <? 0) with false by lia.
  rewrite !Z.max_l by lia. destruct (Z_le_gt_dec b (zlen l)) as [Hb|Hb].
  - now rewrite !Z.min_l by lia.
  - destruct (Z_le_gt_dec a (zlen l)) as [Ha|Ha].
    + rewrite (Z.min_l a), (Z.min_r b) by lia. rewrite !firstn_all2; [reflexivity| |];
        rewrite skipn_length; unfold zlen in *; lia.
    + rewrite !Z.min_r by lia. rewrite !skipn_all2 by (unfold zlen in *; lia). now rewrite !firstn_nil.
Qed.

Lemma skipn_add {A} (l : list A) a b : skipn a (skipn b l) = skipn (b + a) l.
Proof.
  revert b. induction l as [|x l IH]; intros b; [now rewrite !skipn_nil|].
  destruct b; [reflexivity|]. cbn [skipn Nat.add]. apply IH.
Qed.

Lemma last_default {A} (l : list A) : forall a b, l <> [] -> last l a = last l b.
Proof.
  induction l as [|x l IH]; intros a b H; [congruence|]. destruct l as [|y l]; [reflexivity|].
  cbn [last]. apply (IH a b). discriminate.
Qed.

Lemma last_cons {A} (b : A) ps a : last (b :: ps) a = last ps b.
Proof. destruct ps as [|c ps]; [reflexivity|]. cbn [last]. apply (last_default (c :: ps)). discriminate. Qed.

Lemma last_in {A} (l : list A) a : l <> [] -> In (last l a) l.
Proof.
  induction l as [|x l IH]; intros H; [congruence|]. destruct l as [|y l]; [now left|].
  right. change (last (x :: y :: l) a) with (last (y :: l) a). apply IH. discriminate.
Qed.

Lemma firstn_app_window {A} (l : list A) a b c : (a <= b <= c)%nat ->
  firstn (b - a) (skipn a l) ++ firstn (c - b) (skipn b l) = firstn (c - a) (skipn a l).
Proof.
  intros H. replace (skipn b l) with (skipn (b - a) (skipn a l)).
  - replace (c - a)%nat with ((b - a) + (c - b))%nat by lia.
    generalize (skipn a l) as m. generalize (b - a)%nat as p. generalize (c - b)%nat as q. clear.
    intros q p m. rewrite <- (firstn_skipn p m) at 3. rewrite firstn_app.
    destruct (Nat.le_gt_cases p (length m)) as [Hp|Hp].
    + rewrite (firstn_all2 (firstn p m)) by (rewrite firstn_length; lia). f_equal. f_equal.
      rewrite firstn_length. lia.
    + rewrite (firstn_all2 (firstn p m)) by (rewrite firstn_length; lia).
      rewrite (skipn_all2 m) by lia. now rewrite !firstn_nil.
  - rewrite skipn_add. f_equal. lia.
Qed.

(** The groups are consecutive pieces of the first [n] dimensions, even when
    there are too few or too many of them. *)
Lemma concat_cut_any dims : forall ps a, Sorted Z.le (a :: ps) -> 0 <= a ->
  concat (cut dims (a :: ps)) = firstn (Z.to_nat (last ps a - a)) (skipn (Z.to_nat a) dims).
Proof.
  induction ps as [|b ps IH]; intros a Hs Ha.
  - cbn [last cut concat]. now rewrite Z.sub_diag.
  - inversion Hs as [|? ? Hs' Hh]; subst. inversion Hh as [|? ? Hab]; subst.
    change (cut dims (a :: b :: ps)) with (pyslice_list dims a b :: cut dims (b :: ps)). cbn [concat].
    rewrite pyslice_firstn by lia. rewrite IH by (auto; lia).
    rewrite last_cons.
    assert (b <= last ps b).
    { clear - Hs'. apply Sorted_StronglySorted in Hs'; [|exact Z.le_trans]. inversion Hs' as [|? ? _ Hf]; subst.
      destruct ps as [|c ps]; [cbn; lia|]. rewrite Forall_forall in Hf. apply Hf, last_in. discriminate. }
    replace (Z.to_nat (b - a)) with (Z.to_nat b - Z.to_nat a)%nat by lia.
    replace (Z.to_nat (last ps b - b)) with (Z.to_nat (last ps b) - Z.to_nat b)%nat by lia.
    rewrite firstn_app_window by lia. f_equal. lia.
Qed.

Lemma Sorted_bounds part n : Sorted Z.le part -> Forall (fun p => 0 < p < n) part -> 0 <= n ->
  Sorted Z.le (0 :: part ++ [n]).
Proof.
  intros Hs Hf Hn. apply StronglySorted_Sorted. apply Sorted_StronglySorted in Hs; [|exact Z.le_trans].
  assert (H0 : Forall (Z.le 0) (part ++ [n])).
  { apply Forall_app. split; [|repeat constructor; lia]. eapply Forall_impl; [|exact Hf]. cbn. lia. }
  constructor; [|exact H0]. clear H0. induction Hs as [|p part Hs IH Hp]; cbn [app].
  - repeat constructor.
  - inversion Hf; subst. constructor; [now apply IH|]. apply Forall_app. split; [exact Hp|].
    constructor; [lia|constructor].
Qed.

(** What DM.fromobject accepts. *)
Lemma dm_fromobject_gen_inv is_buffer fo h src a dimensions partitioning s h' :
  dm_fromobject_gen is_buffer fo h src a dimensions partitioning = Ok (s, h') ->
  let n := zlen (fo_get_shape src a) in
  let dims := dm_dims n dimensions in
  let part := dm_part is_buffer n partitioning in
  Sorted Z.le part /\ Forall (fun p => 0 < p < n) part /\ zlen part < n
  /\ Permutation (firstn (Z.to_nat n) dims) (zseq n)
  /\ NoDup (dm_rdims is_buffer n dimensions partitioning).
Proof.
  intros H n dims part. unfold dm_fromobject_gen in H. fold n in H.
  fold (dm_dims n dimensions) in H. fold (dm_part is_buffer n partitioning) in H. fold dims part in H.
  apply bind_ok in H. destruct H as (u1 & A1 & H). apply assert_ok in A1.
  apply bind_ok in H. destruct H as (u2 & A2 & H). apply assert_ok in A2.
  apply bind_ok in H. destruct H as (u3 & A3 & H). apply assert_ok in A3.
  apply bind_ok in H. destruct H as ([[rsh rshs] rst] & A4 & H).
  apply bind_ok in H. destruct H as ([st h1] & A5 & H).
  apply bind_ok in H. destruct H as (u6 & A6 & H).
  apply bind_ok in H. destruct H as (d & A7 & H).
  assert (P1 : Sorted Z.le part /\ Forall (fun p => 0 < p < n) part).
  { destruct part as [|p part']; [split; constructor|].
    rewrite !andb_true_iff, !forallb_forall in A1. destruct A1 as [[A1 B1] C1].
    split; [now apply is_sorted_Sorted|]. apply Forall_forall. intros x Hx.
    specialize (B1 x Hx). specialize (C1 x Hx). lia. }
  destruct P1 as [P1 P2]. assert (Hn : 0 <= n) by apply zlen_nonneg.
  split; [exact P1|]. split; [exact P2|]. split; [lia|]. split.
  2:{ apply distinct_groups_NoDup in A3. apply A3. }
  assert (Ec : concat (cut dims ([0] ++ part ++ [n])) = firstn (Z.to_nat n) dims).
  { cbn [app]. rewrite concat_cut_any by (auto using Sorted_bounds; lia).
    rewrite last_last, Z.sub_0_r. reflexivity. }
  unfold mk_dm in A7. set (rdims := cut dims ([0] ++ part ++ [n])) in *.
  destruct rdims as [|g gs] eqn:Er; [discriminate|]. rewrite <- Er in A7, Ec.
  apply bind_ok in A7. destruct A7 as (u7 & A7 & _). apply assert_ok in A7.
  rewrite andb_true_iff, !forallb_forall in A7. destruct A7 as [_ A7]. rewrite Ec in A7. fold n in A7.
  apply Permutation_sym. apply NoDup_Permutation_bis.
  - apply NoDup_zseq.
  - rewrite firstn_length, zseq_length_nat. lia.
  - intros x Hx. apply zmem_In. now apply A7.
Qed.

(** A strictly increasing partitioning is valid. *)
Lemma cut_strict_NoDup dims : NoDup dims -> forall ps a, StronglySorted Z.lt (a :: ps) -> 0 <= a ->
  Forall (fun p => p <= zlen dims) ps ->
  Forall (fun g => g <> []) (cut dims (a :: ps)).
Proof.
  intros Hd. induction ps as [|b ps IH]; intros a Hs Ha Hf; [constructor|].
  change (cut dims (a :: b :: ps)) with (pyslice_list dims a b :: cut dims (b :: ps)).
  inversion Hs as [|? ? Hs' Hlt]; subst. inversion Hlt; subst. inversion Hf; subst.
  constructor; [|apply IH; auto; lia].
  rewrite pyslice_firstn by lia. intros E. apply (f_equal (@length Z)) in E.
  rewrite firstn_length, skipn_length in E. unfold zlen in *. cbn in E. lia.
Qed.

Lemma NoDup_groups : forall gs : list (list Z), NoDup (concat gs) -> Forall (fun g => g <> []) gs -> NoDup gs.
Proof.
  induction gs as [|g gs IH]; intros Hd Hn; constructor; inversion Hn as [|? ? Hg Hn']; subst; cbn [concat] in Hd.
  - intros Hin. destruct g as [|x g]; [congruence|]. cbn [app] in Hd. inversion Hd as [|? ? Hx _]; subst.
    apply Hx. apply in_or_app. right. apply in_concat. exists (x :: g). split; [exact Hin|now left].
  - apply IH; [|assumption]. clear - Hd. induction g; [exact Hd|]. cbn in Hd. inversion Hd; subst. auto.
Qed.

Lemma strict_count part n : StronglySorted Z.lt part -> Forall (fun p => 0 < p < n) part -> 0 < n -> zlen part + 1 <= n.
Proof.
  intros Hs. revert n. induction part as [|p part IH] using rev_ind; intros n Hf Hn; [unfold zlen; cbn; lia|].
  apply Forall_app in Hf. destruct Hf as [Hf Hp]. inversion Hp as [|? ? Hp' _]; subst.
  assert (Hs' : StronglySorted Z.lt part /\ Forall (fun q => q < p) part).
  { clear - Hs. induction part as [|q part IH]; [split; constructor|]. cbn [app] in Hs. inversion Hs as [|? ? H1 H2]; subst.
    destruct (IH H1) as [I1 I2]. apply Forall_app in H2. destruct H2 as [H2 H3]. inversion H3; subst.
    split; constructor; auto. }
  destruct Hs' as [Hs1 Hs2]. rewrite zlen_app. change (zlen [p]) with 1.
  assert (zlen part + 1 <= p); [|lia]. apply IH; auto; [|lia].
  rewrite Forall_forall in *. intros x Hx. specialize (Hf x Hx). specialize (Hs2 x Hx). lia.
Qed.

Lemma StronglySorted_lt_le part : StronglySorted Z.lt part -> Sorted Z.le part.
Proof.
  intros H. apply StronglySorted_Sorted. induction H as [|p part H IH Hf]; constructor; auto.
  eapply Forall_impl; [|exact Hf]. cbn. lia.
Qed.

Lemma dm_args_strict is_buffer n dimensions partitioning : 0 < n ->
  (forall d, dimensions = Some d -> Permutation d (zseq n)) ->
  (forall p, partitioning = Some p -> StronglySorted Z.lt p /\ Forall (fun x => 0 < x < n) p) ->
  dm_args is_buffer n dimensions partitioning.
Proof.
  intros Hn Hd Hp.
  assert (D : Permutation (dm_dims n dimensions) (zseq n)).
  { unfold dm_dims. destruct dimensions; auto. }
  assert (P : StronglySorted Z.lt (dm_part is_buffer n partitioning)
              /\ Forall (fun x => 0 < x < n) (dm_part is_buffer n partitioning)).
  { unfold dm_part. destruct partitioning; auto. destruct is_buffer; cbn [orb]; [split; constructor|].
    destruct (n =? 1) eqn:E1; [split; constructor|]. split; repeat constructor; lia. }
  destruct P as [P1 P2].
  assert (P3 : Sorted Z.le (dm_part is_buffer n partitioning)) by now apply StronglySorted_lt_le.
  assert (El : zlen (dm_dims n dimensions) = n).
  { unfold zlen. rewrite (Permutation_length D), zseq_length_nat. lia. }
  constructor; auto using strict_count.
  unfold dm_rdims. apply NoDup_groups.
  - cbn [app]. rewrite concat_cut_any; [|apply Sorted_bounds; auto; lia|lia].
    rewrite last_last, Z.sub_0_r. cbn [Z.to_nat skipn].
    rewrite firstn_all2 by (unfold zlen in El; lia).
    eapply Permutation_NoDup; [apply Permutation_sym, D|apply NoDup_zseq].
  - cbn [app]. apply cut_strict_NoDup.
    + eapply Permutation_NoDup; [apply Permutation_sym, D|apply NoDup_zseq].
    + assert (S1 : StronglySorted Z.lt (dm_part is_buffer n partitioning ++ [n])).
      { clear - P1 P2. induction P1 as [|p part P1 IH Hp]; cbn [app]; [repeat constructor|].
        inversion P2; subst. constructor; [now apply IH|]. apply Forall_app. split; [exact Hp|].
        constructor; [lia|constructor]. }
      constructor; [exact S1|]. apply Forall_app. split; [|repeat constructor; lia].
      eapply Forall_impl; [|exact P2]. cbn. lia.
    + lia.
    + apply Forall_app. split; [|repeat constructor; lia]. eapply Forall_impl; [|exact P2]. cbn. lia.
Qed.

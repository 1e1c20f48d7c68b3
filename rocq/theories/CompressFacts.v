(** compress_indices, uncompress_indices and the binary search. *)
From Coq Require Import Sorting.Sorted ZifyBool.
From Verif Require Import Py SliceTools Basics Storage Spec SliceFacts.

(** * Python list assignment *)
Lemma set_nth_length {A} n (v : A) l : length (set_nth n v l) = length l.
Proof. revert n. induction l as [|x l IH]; intros [|n]; cbn; auto. Qed.

Lemma set_nth_nth {A} n (v d : A) l k : (n < length l)%nat ->
  nth k (set_nth n v l) d = if Nat.eqb k n then v else nth k l d.
Proof.
  revert n k. induction l as [|x l IH]; intros n k H; [cbn in H; lia|].
  destruct n as [|n]; destruct k as [|k]; cbn [set_nth nth Nat.eqb]; auto.
  apply IH. cbn in H. lia.
Qed.

Lemma pyset_ok {A} (l : list A) i v : 0 <= i < zlen l ->
  pyset l i v = Ok (set_nth (Z.to_nat i) v l).
Proof.
  intros H. unfold pyset. replace (i <? 0) with false by lia.
  replace ((i <? 0) || (zlen l <=? i)) with false by lia. reflexivity.
Qed.

Lemma pyget_ok {A} (l : list A) i d : 0 <= i < zlen l ->
  pyget l i = Ok (nth (Z.to_nat i) l d).
Proof.
  intros H. unfold pyget, zlen in *. replace (i <? 0) with false by lia.
  replace (i <? 0) with false by lia.
  rewrite (nth_error_nth' l d) by lia. reflexivity.
Qed.

(** * compress_indices *)

(** entry r of a list, as an integer position *)
Definition znth (r : Z) (l : list Z) : Z := nth (Z.to_nat r) l 0.

Lemma fill_spec cnt comp k v : 0 <= k -> k + Z.of_nat cnt <= zlen comp ->
  exists comp', fill cnt comp k v = Ok (comp', k + Z.of_nat cnt)
    /\ length comp' = length comp
    /\ forall r, 0 <= r -> znth r comp' = if (k <=? r) && (r <? k + Z.of_nat cnt) then v else znth r comp.
Proof.
  revert comp k. induction cnt as [|c IH]; intros comp k Hk Hl; cbn [fill].
  - exists comp. rewrite Z.add_0_r. repeat split; auto. intros r Hr.
    replace ((k <=? r) && (r <? k)) with false by lia. reflexivity.
  - rewrite pyset_ok by lia. cbn [bind].
    destruct (IH (set_nth (Z.to_nat k) v comp) (k + 1)) as (c' & E & Hlen & Hn).
    + lia.
    + unfold zlen in *. rewrite set_nth_length. lia.
    + exists c'. rewrite E. split; [do 2 f_equal; lia|]. rewrite set_nth_length in Hlen.
      split; [assumption|]. intros r Hr. rewrite Hn by assumption.
      unfold znth at 1. rewrite set_nth_nth by (unfold zlen in Hl; lia).
      destruct (Nat.eqb (Z.to_nat r) (Z.to_nat k)) eqn:E2.
      * apply Nat.eqb_eq in E2. assert (r = k) by lia. subst r.
        replace ((k + 1 <=? k) && (k <? k + 1 + Z.of_nat c)) with false by lia.
        rewrite Z.leb_refl. replace (k <? k + Z.of_nat (S c)) with true by lia. reflexivity.
      * apply Nat.eqb_neq in E2. fold (znth r comp).
        destruct (Z.leb_spec (k + 1) r), (Z.leb_spec k r), (Z.ltb_spec r (k + 1 + Z.of_nat c)),
          (Z.ltb_spec r (k + Z.of_nat (S c))); cbn [andb]; try reflexivity; lia.
Qed.

(** number of entries smaller than r *)
Fixpoint count_lt (r : Z) (l : list Z) : Z :=
  match l with [] => 0 | x :: t => (if x <? r then 1 else 0) + count_lt r t end.

Lemma count_lt_length r l : count_lt r l = zlen (filter (fun x => x <? r) l).
Proof.
  induction l as [|x l IH]; [reflexivity|]. cbn [count_lt filter]. rewrite IH.
  destruct (x <? r); unfold zlen; cbn [length]; lia.
Qed.

Lemma count_lt_none r l : Forall (fun x => r <= x) l -> count_lt r l = 0.
Proof. intros H. induction H as [|x l Hx H IH]; cbn [count_lt]; [reflexivity|].
  replace (x <? r) with false by lia. lia. Qed.

Lemma count_lt_all r l : Forall (fun x => x < r) l -> count_lt r l = zlen l.
Proof. intros H. induction H as [|x l Hx H IH]; cbn [count_lt]; [reflexivity|].
  replace (x <? r) with true by lia. unfold zlen in *. cbn [length]. lia. Qed.

Definition last_of (l0 : Z) (l : list Z) : Z := last l l0.

Lemma sorted_head_le a l : Sorted Z.le (a :: l) -> Forall (fun x => a <= x) l.
Proof.
  intros H. apply Sorted_StronglySorted in H; [|intros x y z; lia].
  now inversion H.
Qed.

Lemma sorted_cons_inv a l : Sorted Z.le (a :: l) -> Sorted Z.le l.
Proof. intros H. now inversion H. Qed.

Lemma compress_loop_spec rest : forall i comp l0,
  Sorted Z.le (l0 :: rest) -> 0 <= l0 -> Forall (fun x => x < zlen comp - 1) rest ->
  l0 + 1 <= zlen comp ->
  exists comp', let m := last rest l0 in
    compress_loop rest i comp (l0 + 1) l0 = Ok (comp', m + 1)
    /\ length comp' = length comp
    /\ l0 <= m < zlen comp /\ Forall (fun x => x <= m) rest
    /\ forall r, 0 <= r -> znth r comp' =
         if (l0 <? r) && (r <=? m) then i + count_lt r rest else znth r comp.
Proof.
  induction rest as [|x rest IH]; intros i comp l0 Hs H0 Hlt Hl; cbn [compress_loop].
  - exists comp. cbn [last]. repeat split; auto; try lia.
    intros r Hr. replace ((l0 <? r) && (r <=? l0)) with false by lia. reflexivity.
  - inversion Hlt as [|? ? Hx Hlt']; subst.
    pose proof (sorted_head_le _ _ Hs) as Hle. inversion Hle as [|? ? Hx0 _]; subst.
    destruct (fill_spec (Z.to_nat (x - l0)) comp (l0 + 1) i) as (c1 & E1 & L1 & N1); [lia|lia|].
    rewrite E1. cbn [bind].
    replace (l0 + 1 + Z.of_nat (Z.to_nat (x - l0))) with (x + 1) in * by lia.
    assert (Ez : zlen c1 = zlen comp) by (unfold zlen; lia).
    pose proof (sorted_cons_inv _ _ Hs) as Hs'.
    destruct (IH (i + 1) c1 x Hs') as (c2 & E2 & L2 & Hm & Hall & N2); try lia.
    { rewrite Ez. exact Hlt'. }
    exists c2.
    assert (Elast : last (x :: rest) l0 = last rest x).
    { destruct rest as [|y rest]; [reflexivity|]. cbn [last]. clear.
      revert y. induction rest as [|z rest IH]; intros y; [reflexivity|]. cbn [last]. apply IH. }
    cbv zeta. rewrite Elast. split; [exact E2|]. split; [lia|]. split; [lia|].
    split; [constructor; [lia|exact Hall]|].
    intros r Hr. rewrite N2 by assumption. rewrite N1 by assumption.
    cbn [count_lt].
    pose proof (sorted_head_le _ _ Hs') as Hle'.
    destruct (Z.leb_spec r x) as [Hrx|Hrx].
    + replace ((x <? r) && (r <=? last rest x)) with false by lia.
      replace (x <? r) with false by lia.
      rewrite count_lt_none.
      2:{ eapply Forall_impl; [|exact Hle']. cbn. intros; lia. }
      destruct (Z.ltb_spec l0 r).
      * replace ((l0 + 1 <=? r) && (r <? x + 1)) with true by lia.
        replace (true && (r <=? last rest x)) with true by lia. lia.
      * replace ((l0 + 1 <=? r) && (r <? x + 1)) with false by lia. reflexivity.
    + replace (x <? r) with true by lia.
      replace ((l0 + 1 <=? r) && (r <? x + 1)) with false by lia.
      replace (l0 <? r) with true by lia. cbn [andb].
      destruct (r <=? last rest x); lia.
Qed.

Lemma nth_zseq_map (f : Z -> Z) n k : (k < Z.to_nat n)%nat ->
  nth k (map f (zseq n)) 0 = f (Z.of_nat k).
Proof.
  intros H. unfold zseq. rewrite map_map.
  rewrite nth_indep with (d' := f (Z.of_nat 0)) by (rewrite map_length, seq_length; lia).
  rewrite (map_nth (fun k => f (Z.of_nat k))), seq_nth by lia. reflexivity.
Qed.

Lemma compress_indices_spec l size : Sorted Z.le l -> 0 <= size ->
  Forall (fun x => 0 <= x < size) l ->
  compress_indices l size = Ok (map (fun r => count_lt r l) (zseq (size + 1))).
Proof.
  intros Hs Hsz Hr. unfold compress_indices.
  set (c0 := repeat 0 (Z.to_nat (size + 1))).
  assert (Hc0 : zlen c0 = size + 1) by (unfold c0, zlen; rewrite repeat_length; lia).
  assert (Hs0 : Sorted Z.le (0 :: l)).
  { constructor; [assumption|]. destruct Hr; constructor. lia. }
  destruct (compress_loop_spec l 0 c0 0 Hs0 ltac:(lia)) as (c1 & E1 & L1 & Hm & Hall & N1); [|lia|].
  { rewrite Hc0. eapply Forall_impl; [|exact Hr]. cbn. intros; lia. }
  cbv zeta in E1. rewrite Z.add_0_l in E1. rewrite E1. cbn [bind].
  set (m := last l 0) in *.
  assert (Hz1 : zlen c1 = size + 1) by (unfold zlen in *; lia).
  destruct (fill_spec (Z.to_nat (size + 1 - (m + 1))) c1 (m + 1) (zlen l)) as (c2 & E2 & L2 & N2);
    [lia|lia|].
  rewrite E2. cbn [bind]. f_equal.
  replace (m + 1 + Z.of_nat (Z.to_nat (size + 1 - (m + 1)))) with (size + 1) in * by lia.
  apply (nth_ext _ _ 0 0).
  - rewrite map_length, zseq_length_nat. unfold zlen in *. lia.
  - intros k Hk. assert (Hk' : (k < Z.to_nat (size + 1))%nat) by (unfold zlen in *; lia).
    rewrite nth_zseq_map by assumption.
    specialize (N2 (Z.of_nat k) ltac:(lia)). specialize (N1 (Z.of_nat k) ltac:(lia)).
    unfold znth in N1, N2. rewrite Nat2Z.id in N1, N2. rewrite N2.
    destruct (Z.leb_spec (Z.of_nat k) m) as [Hkm|Hkm].
    + replace ((m + 1 <=? Z.of_nat k) && (Z.of_nat k <? size + 1)) with false by lia.
      rewrite N1. destruct (Z.ltb_spec 0 (Z.of_nat k)) as [Hk0|Hk0]; cbn [andb].
      * lia.
      * replace k with 0%nat by lia. rewrite count_lt_none.
        2:{ eapply Forall_impl; [|exact Hr]. cbn. intros; lia. }
        unfold c0. destruct (Z.to_nat (size + 1)); reflexivity.
    + replace ((m + 1 <=? Z.of_nat k) && (Z.of_nat k <? size + 1)) with true by lia.
      symmetry. apply count_lt_all. eapply Forall_impl; [|exact Hall]. cbn. intros; lia.
Qed.

(** * uncompress_indices *)
Fixpoint count_eq (r : Z) (l : list Z) : Z :=
  match l with [] => 0 | x :: t => (if x =? r then 1 else 0) + count_eq r t end.

Lemma count_lt_succ r l : count_lt (r + 1) l = count_lt r l + count_eq r l.
Proof.
  induction l as [|x l IH]; cbn [count_lt count_eq]; [reflexivity|]. rewrite IH.
  destruct (Z.ltb_spec x (r + 1)), (Z.ltb_spec x r), (Z.eqb_spec x r); lia.
Qed.

Lemma count_eq_nonneg r l : 0 <= count_eq r l.
Proof. induction l as [|x l IH]; cbn [count_eq]; [lia|]. destruct (x =? r); lia. Qed.

(** splitting off the entries equal to the smallest possible value *)
Lemma sorted_split r l : Sorted Z.le l -> Forall (fun x => r <= x) l ->
  exists t, l = repeat r (Z.to_nat (count_eq r l)) ++ t /\ Sorted Z.le t
    /\ Forall (fun x => r + 1 <= x) t.
Proof.
  intros Hs. induction l as [|x l IH]; intros Hr.
  - exists []. cbn. repeat split; constructor.
  - inversion Hr as [|? ? Hx Hr']; subst. cbn [count_eq].
    destruct (Z.eqb_spec x r) as [->|Hne].
    + destruct (IH (sorted_cons_inv _ _ Hs) Hr') as (t & E & Ht & Hf).
      exists t. pose proof (count_eq_nonneg r l).
      replace (Z.to_nat (1 + count_eq r l)) with (S (Z.to_nat (count_eq r l))) by lia.
      cbn [repeat app]. rewrite <- E. auto.
    + pose proof (sorted_head_le _ _ Hs) as Hle.
      assert (E0 : count_eq r l = 0).
      { clear - Hle Hne Hx. induction Hle as [|y l Hy H IH]; cbn [count_eq]; [reflexivity|].
        replace (y =? r) with false by lia. lia. }
      rewrite E0. exists (x :: l). cbn [Z.add Z.to_nat repeat app]. split; [reflexivity|].
      split; [assumption|]. constructor; [lia|]. eapply Forall_impl; [|exact Hle]. cbn; intros; lia.
Qed.

Lemma count_eq_other r s n t : r <> s -> count_eq s (repeat r n ++ t) = count_eq s t.
Proof. intros H. induction n as [|n IH]; cbn; [reflexivity|]. replace (r =? s) with false by lia. lia. Qed.

Lemma uncompress_counts (f : Z -> Z) (l : list Z) : forall n i, 
  (forall r, i <= r -> f (r + 1) - f r = count_eq r l) ->
  Sorted Z.le l -> Forall (fun x => i <= x < i + Z.of_nat n) l ->
  uncompress_loop i (map (fun k => f (i + Z.of_nat k)) (seq 0 (S n))) = l.
Proof.
  intros n. revert l. induction n as [|n IH]; intros l i Hf Hs Hr.
  - cbn. destruct l; [reflexivity|]. inversion Hr; lia.
  - destruct (sorted_split i l Hs) as (t & El & Ht & Hft).
    { eapply Forall_impl; [|exact Hr]. cbn; intros; lia. }
    assert (Hfr : Forall (fun x => i + 1 <= x < i + 1 + Z.of_nat n) t).
    { rewrite El in Hr. apply Forall_app in Hr. destruct Hr as [_ Hr].
      rewrite Forall_forall in *. intros x Hx. specialize (Hft x Hx). specialize (Hr x Hx). lia. }
    assert (Hf' : forall r, i + 1 <= r -> f (r + 1) - f r = count_eq r t).
    { intros r Hri. rewrite Hf by lia. rewrite El at 1. apply count_eq_other. lia. }
    specialize (IH t (i + 1) Hf' Ht Hfr).
    replace (map (fun k => f (i + Z.of_nat k)) (seq 0 (S (S n))))
      with (f i :: map (fun k => f (i + 1 + Z.of_nat k)) (seq 0 (S n))).
    2:{ change (seq 0 (S (S n))) with (0%nat :: seq 1 (S n)). cbn [map].
        rewrite Z.add_0_r. f_equal. rewrite <- seq_shift, map_map. apply map_ext.
        intros k. f_equal. lia. }
    change (map (fun k => f (i + 1 + Z.of_nat k)) (seq 0 (S n)))
      with (f (i + 1 + Z.of_nat 0) :: map (fun k => f (i + 1 + Z.of_nat k)) (seq 1 n)) in *.
    cbn [uncompress_loop]. cbn [uncompress_loop] in IH.
    replace (i + 1 + Z.of_nat 0) with (i + 1) in * by lia.
    rewrite IH. rewrite Hf by lia. symmetry. exact El.
Qed.

Lemma uncompress_compress l size c : Sorted Z.le l -> 0 <= size ->
  Forall (fun x => 0 <= x < size) l ->
  compress_indices l size = Ok c -> uncompress_indices c = l.
Proof.
  intros Hs Hsz Hr E. rewrite compress_indices_spec in E by assumption. injection E as <-.
  unfold uncompress_indices, zseq. rewrite map_map.
  replace (Z.to_nat (size + 1)) with (S (Z.to_nat size)) by lia.
  apply (uncompress_counts (fun r => count_lt r l) l (Z.to_nat size) 0); auto.
  - intros r _. rewrite count_lt_succ. lia.
  - eapply Forall_impl; [|exact Hr]. cbn; intros; lia.
Qed.

(** nondecreasing row pointers *)
Lemma count_lt_app r l m : count_lt r (l ++ m) = count_lt r l + count_lt r m.
Proof. induction l as [|x l IH]; cbn [app count_lt]; [lia|]. rewrite IH. lia. Qed.

Lemma count_lt_repeat r i n : count_lt r (repeat i n) = if i <? r then Z.of_nat n else 0.
Proof.
  induction n as [|n IH]; cbn [repeat count_lt].
  - now destruct (i <? r).
  - rewrite IH. destruct (i <? r); lia.
Qed.

Lemma uncompress_range c : forall i, 
  Forall (fun x => i <= x < i + zlen c - 1) (uncompress_loop i c).
Proof.
  induction c as [|a c IH]; intros i; [constructor|].
  destruct c as [|b c]; [constructor|].
  cbn [uncompress_loop]. apply Forall_app. split.
  - apply Forall_forall. intros x Hx. apply repeat_spec in Hx. unfold zlen. cbn [length]. lia.
  - specialize (IH (i + 1)). eapply Forall_impl; [|exact IH]. cbn.
    intros x Hx. unfold zlen in *. cbn [length] in *. lia.
Qed.

Lemma sorted_app_le l m (i : Z) : Sorted Z.le l -> Sorted Z.le m ->
  Forall (fun x => x <= i) l -> Forall (fun x => i <= x) m -> Sorted Z.le (l ++ m).
Proof.
  intros Hl Hm Hli Hmi. induction l as [|x l IH]; [exact Hm|].
  inversion Hli as [|? ? Hx Hli']; subst. inversion Hl as [|? ? Hl' Hh]; subst.
  cbn [app]. constructor; [now apply IH|].
  destruct l as [|y l]; cbn [app].
  - destruct Hmi; constructor. lia.
  - constructor. now inversion Hh.
Qed.

Lemma sorted_repeat i n : Sorted Z.le (repeat i n).
Proof. induction n as [|n IH]; cbn; constructor; auto. destruct n; cbn; constructor; lia. Qed.

Lemma uncompress_sorted c : forall i, Sorted Z.le (uncompress_loop i c).
Proof.
  induction c as [|a c IH]; intros i; [constructor|].
  destruct c as [|b c]; [constructor|].
  cbn [uncompress_loop]. apply (sorted_app_le _ _ i).
  - apply sorted_repeat.
  - apply IH.
  - apply Forall_forall. intros x Hx. apply repeat_spec in Hx. lia.
  - eapply Forall_impl; [|exact (uncompress_range (b :: c) (i + 1))]. cbn. intros; lia.
Qed.

Lemma uncompress_count c : Sorted Z.le c -> forall i k, (k < length c)%nat ->
  count_lt (i + Z.of_nat k) (uncompress_loop i c) = nth k c 0 - hd 0 c.
Proof.
  induction c as [|a c IH]; intros Hs i k Hk; [cbn in Hk; lia|].
  cbn [hd]. destruct c as [|b c].
  - cbn in *. replace k with 0%nat by lia. lia.
  - inversion Hs as [|? ? Hs' Hh]; subst. inversion Hh; subst.
    change (uncompress_loop i (a :: b :: c))
      with (repeat i (Z.to_nat (b - a)) ++ uncompress_loop (i + 1) (b :: c)).
    rewrite count_lt_app, count_lt_repeat.
    destruct k as [|k].
    + rewrite Z.add_0_r. replace (i <? i) with false by lia.
      rewrite count_lt_none; [cbn; lia|].
      eapply Forall_impl; [|apply uncompress_range]. cbn. intros; lia.
    + replace (i <? i + Z.of_nat (S k)) with true by lia.
      replace (i + Z.of_nat (S k)) with (i + 1 + Z.of_nat k) by lia.
      rewrite IH by (cbn [length] in *; auto; lia). cbn [hd nth]. lia.
Qed.

Lemma compress_uncompress c : c <> [] -> Sorted Z.le c -> hd 0 c = 0 ->
  compress_indices (uncompress_indices c) (zlen c - 1) = Ok c.
Proof.
  intros Hne Hs H0.
  assert (1 <= zlen c) by (destruct c; [congruence|unfold zlen; cbn [length]; lia]).
  unfold uncompress_indices. rewrite compress_indices_spec.
  - f_equal. replace (zlen c - 1 + 1) with (zlen c) by lia.
    apply (nth_ext _ _ 0 0).
    + rewrite map_length, zseq_length_nat. unfold zlen. lia.
    + intros k Hk. rewrite map_length, zseq_length_nat in Hk.
      rewrite nth_zseq_map by assumption.
      rewrite <- (Z.add_0_l (Z.of_nat k)).
      rewrite uncompress_count by (auto; unfold zlen in Hk; lia). lia.
  - apply uncompress_sorted.
  - lia.
  - eapply Forall_impl; [|apply uncompress_range]. cbn. intros; lia.
Qed.

(** * Binary search *)
Lemma bsearch_spec (d : Z -> res Z) (f : Z -> Z) : forall fuel left right,
  (forall p, left <= p <= right -> d p = Ok (f p)) ->
  (forall p q, left <= p -> p < q -> q <= right -> f q <= 0 -> f p < 0) ->
  (forall p q, left <= p -> p < q -> q <= right -> 0 <= f p -> 0 < f q) ->
  Z.max 0 (right - left + 1) < Z.of_nat fuel ->
  exists r, bsearch fuel left right d = Ok r
    /\ forall p, r = Some p <-> left <= p <= right /\ f p = 0.
Proof.
  induction fuel as [|n IH]; intros left right Hd Hlo Hhi Hf; [lia|]. cbn [bsearch].
  destruct (Z.ltb_spec right left) as [Hlt|Hle].
  - exists None. split; [reflexivity|]. intros p. split; [discriminate|lia].
  - pose proof (Z.div_mod (left + right) 2 ltac:(lia)) as Hdm.
    pose proof (Z.mod_pos_bound (left + right) 2 ltac:(lia)) as Hmb.
    set (pos := (left + right) / 2) in *.
    assert (Hpos : left <= pos <= right) by lia. clearbody pos. clear Hdm Hmb.
    rewrite (Hd pos Hpos). cbn [bind].
    destruct (Z.eqb_spec (f pos) 0) as [E0|N0].
    + exists (Some pos). split; [reflexivity|]. intros p. split.
      * intros [= <-]. auto.
      * intros [Hp Hp0]. destruct (Z.lt_trichotomy p pos) as [H|[H|H]].
        -- specialize (Hlo p pos ltac:(lia) H ltac:(lia) ltac:(lia)). lia.
        -- now subst.
        -- specialize (Hhi pos p ltac:(lia) H ltac:(lia) ltac:(lia)). lia.
    + destruct (Z.ltb_spec (f pos) 0) as [Hneg|Hpp].
      * destruct (IH (pos + 1) right) as (r & E & Hr).
        -- intros p Hp. apply Hd. lia.
        -- intros p q H1 H2 H3. apply Hlo; lia.
        -- intros p q H1 H2 H3. apply Hhi; lia.
        -- lia.
        -- exists r. split; [exact E|]. intros p. rewrite Hr. split; [intros [H H']; split; [lia|assumption]|].
           intros [Hp Hp0]. split; [|assumption].
           destruct (Z.leb_spec p pos) as [H|H]; [|lia]. exfalso.
           assert (p = pos \/ p < pos) as [->|H'] by lia; [lia|].
           specialize (Hlo p pos ltac:(lia) H' ltac:(lia) ltac:(lia)). lia.
      * destruct (IH left (pos - 1)) as (r & E & Hr).
        -- intros p Hp. apply Hd. lia.
        -- intros p q H1 H2 H3. apply Hlo; lia.
        -- intros p q H1 H2 H3. apply Hhi; lia.
        -- lia.
        -- exists r. split; [exact E|]. intros p. rewrite Hr. split; [intros [H H']; split; [lia|assumption]|].
           intros [Hp Hp0]. split; [|assumption].
           destruct (Z.leb_spec pos p) as [H|H]; [|lia]. exfalso.
           assert (p = pos \/ pos < p) as [->|H'] by lia; [lia|].
           specialize (Hhi pos p ltac:(lia) H' ltac:(lia) ltac:(lia)). lia.
Qed.

Lemma search_fuel_ok left right :
  Z.max 0 (right - left + 1) < Z.of_nat (search_fuel left right).
Proof. unfold search_fuel. lia. Qed.

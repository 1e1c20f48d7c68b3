(** C84 for lists that contain arrays which share the data of the target:
    exactly which elements come out right. *)
From Coq Require Import Sorting.Sorted Permutation ZifyBool.
From Verif Require Import Py SliceTools Basics Storage Nested Spec SliceFacts IndexFacts
  CompressFacts ReduceFacts SolverFacts SolveFacts Repr ReprFacts ViewFacts BuildFacts SparseFacts
  ConvFacts FromFacts DMFacts ReadFacts MapFacts ChainFacts ChainDM WriteFacts EffectFacts AliasFacts RefineFacts
  PropRead PropWrite PropFail PropIndex PropReach PropChain PropNested PropNestedSet PropOverlap PropCopy.

(** * Specification *)

(** The element of which array stands at the index [j] of the nested list [q]. *)
Fixpoint element_of (q : nested) (j : list Z) : option (storage * list Z) :=
  match q with
  | NVal _ => None
  | NSto t => Some (t, j)
  | NSeq l => match j with
              | z :: r => match nth_error l (Z.to_nat z) with Some x => element_of x r | None => None end
              | [] => None
              end
  end.
(** The value at the index [k] of the list is read from the place in memory where
    the element [i] of s is kept. *)
Definition reads_from (q : nested) (k : list Z) (s : storage) (i : list Z) : Prop :=
  exists t i', element_of q k = Some (t, i') /\ data_addr t = data_addr s /\ spot t i' = spot s i.

(** * Facts *)

(** Writes into one list: [(Some c, _, p)] copies the place c to p, [(None, x, p)]
    writes x at p. *)
Fixpoint moves (L : list (option Z * pyval * Z)) (l : list pyval) : list pyval :=
  match L with
  | [] => l
  | (o, x, p) :: r =>
      moves r (set_nth (Z.to_nat p) (match o with Some c => nth (Z.to_nat c) l VNone | None => x end) l)
  end.
Definition dest (e : option Z * pyval * Z) : Z := snd e.
Definition dests_ok (n : nat) (L : list (option Z * pyval * Z)) : Prop :=
  Forall (fun e => 0 <= dest e < Z.of_nat n) L.

Lemma moves_length L : forall l, length (moves L l) = length l.
Proof. induction L as [|[[o x] p] L IH]; intros l; cbn [moves]; [reflexivity|]. now rewrite IH, set_nth_length. Qed.
Lemma moves_app L1 L2 : forall l, moves (L1 ++ L2) l = moves L2 (moves L1 l).
Proof. induction L1 as [|[[o x] p] L1 IH]; intros l; cbn [app moves]; [reflexivity|]. apply IH. Qed.
Lemma moves_out L : forall l q, dests_ok (length l) L -> 0 <= q -> ~ In q (map dest L) ->
  nth (Z.to_nat q) (moves L l) VNone = nth (Z.to_nat q) l VNone.
Proof.
  induction L as [|[[o x] p] L IH]; intros l q Hr Hq Hn; cbn [moves]; [reflexivity|].
  inversion Hr as [|? ? Hp Hr']; subst. unfold dest in Hp. cbn [snd map] in *.
  rewrite IH; [|now rewrite set_nth_length|exact Hq|intros I; apply Hn; now right].
  rewrite nth_set_z by (auto; lia). destruct (q =? p) eqn:E; [|reflexivity]. exfalso. apply Hn. left. unfold dest. cbn [snd]. lia.
Qed.
Lemma moves_at L1 o x p L2 l : dests_ok (length l) (L1 ++ (o, x, p) :: L2) ->
  NoDup (map dest (L1 ++ (o, x, p) :: L2)) ->
  nth (Z.to_nat p) (moves (L1 ++ (o, x, p) :: L2) l) VNone
  = match o with Some c => nth (Z.to_nat c) (moves L1 l) VNone | None => x end.
Proof.
  intros Hr Hn. rewrite moves_app. cbn [moves]. rewrite map_app in Hn. cbn [map] in Hn. unfold dest at 2 in Hn. cbn [snd] in Hn.
  apply NoDup_remove_2 in Hn. rewrite in_app_iff in Hn. apply Forall_app in Hr. destruct Hr as [_ Hr].
  inversion Hr as [|? ? Hp Hr']; subst. unfold dest in Hp. cbn [snd] in Hp.
  rewrite moves_out; [|now rewrite set_nth_length, moves_length|lia|tauto].
  rewrite nth_set_z by (rewrite ?moves_length; lia). now rewrite Z.eqb_refl.
Qed.
(** A place that has been written keeps its value, as every place is written once. *)
Lemma moves_kept L1 e L2 l c : dests_ok (length l) (L1 ++ e :: L2) -> NoDup (map dest (L1 ++ e :: L2)) ->
  In c (map dest L1) -> nth (Z.to_nat c) (moves L1 l) VNone = nth (Z.to_nat c) (moves (L1 ++ e :: L2) l) VNone.
Proof.
  intros Hr Hn Hc. rewrite moves_app. symmetry. apply Forall_app in Hr. destruct Hr as [Hr1 Hr2].
  apply moves_out.
  - now rewrite moves_length.
  - apply in_map_iff in Hc. destruct Hc as (y & <- & Hy). unfold dests_ok in Hr1. rewrite Forall_forall in Hr1. apply Hr1 in Hy. lia.
  - intros I. rewrite map_app in Hn. clear - Hn Hc I. revert Hn. induction (map dest L1) as [|x l' IH]; [destruct Hc|].
    cbn [app]. intros Hn. inversion Hn as [|? ? N1 N2]; subst. destruct Hc as [->|Hc]; [|auto].
    apply N1. apply in_or_app. now right.
Qed.

(** What is read at an index of the list while the data of the target change. *)
Definition shares (a : nat) (t : storage) : Prop := ~ In a (addrs t) \/ dense_based t.
Definition origin (a : nat) (q : nested) (j : list Z) : option Z :=
  match element_of q j with
  | Some (t, i) => if Nat.eq_dec (data_addr t) a then Some (spot t i) else None
  | None => None
  end.

Lemma dense_addrs t a : dense_based t -> In a (addrs t) -> a = data_addr t.
Proof.
  unfold addrs. intros Hd [H|H]; [now symmetry|]. exfalso. revert Hd H.
  induction t; cbn [dense_based index_addrs]; intros Hd H; try contradiction. auto.
Qed.

Lemma walk_moving a h l0 q : nth_error h a = Some l0 -> arrays (shares a) q ->
  forall sh v i l, listed h q v -> arrays (one_by_one h) q -> regular sh v -> in_box i sh -> length l = length l0 ->
  nested_walk (set_nth a l h) q i
  = Ok (match origin a q i with Some c => nth (Z.to_nat c) l VNone | None => nested_elem v i end).
Proof.
  intros Hl0. induction q as [w|s|lq IH] using nested_ind'; intros Hs sh v i l Hl Ha Hr Hi Hlen.
  - cbn [listed] in Hl. subst w. rewrite walk_value. replace (origin a (NVal v) i) with (@None Z) by (now destruct i). cbv iota beta.
    now destruct (regular_get sh v i Hr Hi).
  - cbn [listed arrays] in *. destruct Hl as [Hr' Hx].
    assert (sh = shape_of s) as -> by (rewrite <- (regular_shape _ _ Hr); now apply regular_shape).
    assert (Hu : updated a h (set_nth a l h)).
    { eapply updated_set; [exact Hl0|exact Hlen]. }
    unfold origin. replace (element_of (NSto s) i) with (Some (s, i)) by (now destruct i). destruct (Nat.eq_dec (data_addr s) a) as [Ea|Na].
    + destruct Hs as [Hs|Hs]; [exfalso; apply Hs; unfold addrs; now left|].
      assert (Hv : valid h s) by (destruct Ha; assumption). destruct Hv as [f Hf].
      assert (Hc : nth_error (set_nth a l h) a = Some l) by (apply set_nth_error_same, nth_error_Some; congruence).
      rewrite <- Ea in Hl0, Hc. pose proof (dense_relist s h _ f l0 l Hs Hf Hl0 Hc Hlen) as Rn. rewrite Ea in Rn.
      assert (Hv' : one_by_one (set_nth a l h) s).
      { destruct Ha as [b Hv|s Hv Hne Hp|h0 h1 sh rd rsh rs ro data Hb Hnd Hv Hst].
        - apply obo_buffer. eexists. exact Rn.
        - apply obo_plain; auto. eexists. exact Rn.
        - eapply obo_dm; eauto. eexists. exact Rn. }
      destruct (one_by_one_walks _ s Hv' i Hi) as (y & Ey & Gy). rewrite Ey. f_equal.
      rewrite (repr_get _ s _ _ Rn Hi) in Gy. congruence.
    + assert (Hn : ~ In a (addrs s)).
      { destruct Hs as [Hs|Hs]; [exact Hs|]. intros I. apply Na. symmetry. now apply dense_addrs. }
      destruct (Hx i Hi) as (x & Ex & Gx).
      destruct (one_by_one_walks _ s (one_by_one_frame a h _ s Hu Hn Ha) i Hi) as (y & Ey & Gy).
      rewrite Ey. f_equal. unfold nested_elem. rewrite Ex.
      rewrite (get_elem_frame h (set_nth a l h) s i x) in Gy; [congruence| |exact Gx].
      intros b Hb. apply (up_other _ _ _ Hu). congruence.
  - apply listed_seq in Hl. destruct Hl as (vs & -> & Hl). apply arrays_seq in Ha, Hs.
    destruct sh as [|n sh]; cbn [regular] in Hr; [contradiction|]. destruct Hr as (Hn & _ & Hf).
    inversion Hi as [|z ? i' ? Hz Hi']; subst. cbn [nested_walk].
    assert (X : exists x y, pyget lq z = Ok x /\ nth_error lq (Z.to_nat z) = Some x
                            /\ nth_error vs (Z.to_nat z) = Some y /\ listed h x y).
    { unfold pyget. replace (z <? 0) with false by lia. replace (z <? 0) with false by lia.
      assert (L : (Z.to_nat z < length vs)%nat) by (unfold zlen in Hz; lia).
      clear - Hl L. revert L. generalize (Z.to_nat z) as k. induction Hl as [|x y lq vs H1 H2 IH]; intros k L; cbn [length] in L; [lia|].
      destruct k as [|k]; cbn [nth_error]; [eauto 6|]. apply IH. lia. }
    destruct X as (x & y & E1 & E2 & E3 & E4). rewrite E1. cbn [bind].
    rewrite Forall_forall in IH, Ha, Hf, Hs. pose proof (nth_error_In _ _ E2) as I2. pose proof (nth_error_In _ _ E3) as I3.
    rewrite (IH x I2 (Hs x I2) sh y i' l E4 (Ha x I2) (Hf y I3) Hi' Hlen). f_equal.
    unfold origin. cbn [element_of]. rewrite E2. unfold nested_elem. cbn [nested_at].
    replace (z <? 0) with false by lia. now rewrite E3.
Qed.

(** The loop of the assignment is [moves]. *)
Lemma loop_moves {P} (write : heap -> P -> pyval -> outcome) (place : P -> Z) a h l0 q v sh :
  nth_error h a = Some l0 -> arrays (shares a) (NSeq q) ->
  listed h (NSeq q) v -> arrays (one_by_one h) (NSeq q) -> regular sh v ->
  forall L,
  (forall l p x, length l = length l0 -> In p (map snd L) ->
     write (set_nth a l h) p x = (set_nth a (set_nth (Z.to_nat (place p)) x l) h, Ok tt)) ->
  Forall (fun e => in_box (fst e) sh) L ->
  forall l, length l = length l0 ->
  for_each L (nested_put write (NSeq q)) (set_nth a l h)
  = (set_nth a (moves (map (fun e => (origin a (NSeq q) (fst e), nested_elem v (fst e), place (snd e))) L) l) h, Ok tt).
Proof.
  intros Hl0 Hs Hl Ha Hr. induction L as [|[vi p] L IH]; intros Hw Hb l Hlen; cbn [for_each map moves fst snd]; [reflexivity|].
  inversion Hb as [|? ? Hv Hb']; subst. cbn [fst] in Hv. 
  assert (E : Nested.nested_value (set_nth a l h) (NSeq q) vi = nested_walk (set_nth a l h) (NSeq q) vi) by reflexivity.
  unfold nested_put at 1. cbn [fst snd]. rewrite E; clear E.
  rewrite (walk_moving a h l0 (NSeq q) Hl0 Hs sh v vi l Hl Ha Hr Hv Hlen). cbn [eval].
  rewrite Hw by (auto; now left). apply IH; [|exact Hb'|now rewrite set_nth_length].
  intros l1 p1 x1 H1 H2. apply Hw; [exact H1|now right].
Qed.

Lemma element_in_box h q : forall v sh j t i, listed h q v -> arrays (one_by_one h) q -> regular sh v -> in_box j sh ->
  element_of q j = Some (t, i) -> one_by_one h t /\ in_box i (shape_of t) /\ get_elem h t i = Ok (nested_elem v j).
Proof.
  induction q as [w|s|lq IH] using nested_ind'; intros v sh j t i Hl Ha Hr Hj E.
  - destruct j; discriminate E.
  - assert (E0 : Some (s, j) = Some (t, i)) by (rewrite <- E; now destruct j). injection E0 as <- <-.
    cbn [listed arrays] in *. destruct Hl as [Hr' Hx].
    assert (sh = shape_of s) as -> by (rewrite <- (regular_shape _ _ Hr); now apply regular_shape).
    split; [exact Ha|]. split; [exact Hj|]. destruct (Hx j Hj) as (x & Ex & Gx). unfold nested_elem. now rewrite Ex.
  - destruct j as [|z j]; [discriminate E|]. cbn [element_of] in E.
    destruct (nth_error lq (Z.to_nat z)) as [x|] eqn:Ex; [|discriminate]. pose proof (nth_error_In _ _ Ex) as Ix.
    apply listed_seq in Hl. destruct Hl as (vs & -> & Hl). apply arrays_seq in Ha.
    destruct sh as [|n sh]; cbn [regular] in Hr; [contradiction|]. destruct Hr as (Hn & _ & Hf).
    inversion Hj as [|z' ? j' ? Hz Hj']; subst.
    assert (Y : exists y, nth_error vs (Z.to_nat z) = Some y /\ listed h x y).
    { clear - Hl Ex. revert Ex. generalize (Z.to_nat z) as k. induction Hl as [|x0 y0 lq vs H1 H2 IH]; intros k Ex;
        [destruct k; discriminate Ex|].
      destruct k as [|k]; cbn [nth_error] in *; [injection Ex as <-; eauto|]. now apply IH. }
    destruct Y as (y & Ey & Ly). rewrite Forall_forall in IH, Ha, Hf.
    destruct (IH x Ix y sh j t i Ly (Ha x Ix) (Hf y (nth_error_In _ _ Ey)) Hj' E) as (H1 & H2 & H3).
    split; [exact H1|]. split; [exact H2|]. rewrite H3. unfold nested_elem. cbn [nested_at].
    replace (z <? 0) with false by lia. now rewrite Ey.
Qed.

Lemma one_by_one_valid h t : one_by_one h t -> valid h t.
Proof. now intros []. Qed.

Lemma origin_ok a h l q v sh j c : nth_error h a = Some l -> arrays (shares a) q -> listed h q v ->
  arrays (one_by_one h) q -> regular sh v -> in_box j sh -> origin a q j = Some c ->
  0 <= c /\ nested_elem v j = nth (Z.to_nat c) l VNone.
Proof.
  intros Hl Hs Hli Ha Hr Hj E. unfold origin in E. destruct (element_of q j) as [[t i]|] eqn:Et; [|discriminate].
  destruct (Nat.eq_dec (data_addr t) a) as [Ea|]; [|discriminate]. injection E as <-.
  destruct (element_in_box h q v sh j t i Hli Ha Hr Hj Et) as (Ht & Hi & Hg).
  assert (Hd : dense_based t).
  { assert (S : shares a t).
    { clear - Hs Et. revert j t i Hs Et. induction q as [w|s|lq IH] using nested_ind'; intros j t i Hs Et.
      - destruct j; discriminate Et.
      - assert (E0 : Some (s, j) = Some (t, i)) by (rewrite <- Et; now destruct j). injection E0 as <- <-. exact Hs.
      - destruct j as [|z j]; [discriminate Et|]. cbn [element_of] in Et.
        destruct (nth_error lq (Z.to_nat z)) as [x|] eqn:Ex; [|discriminate]. pose proof (nth_error_In _ _ Ex) as Ix.
        apply arrays_seq in Hs. rewrite Forall_forall in IH, Hs. exact (IH x Ix j t i (Hs x Ix) Et). }
    destruct S as [S|S]; [|exact S]. exfalso. apply S. unfold addrs. now left. }
  destruct (one_by_one_valid _ _ Ht) as [f Hf]. destruct (repr_spot t h f Hd Hf) as (l' & Hl' & Hspot).
  rewrite Ea, Hl in Hl'. injection Hl' as <-. destruct (Hspot i Hi) as [Hr1 Hr2]. split; [lia|].
  rewrite (repr_get _ _ _ _ Hf Hi) in Hg. injection Hg as Hg. now rewrite <- Hg.
Qed.

(** The result for a dense array, whatever the order [R] in which the elements are
    visited. *)
Lemma moves_exact s h f ix q v (R : list Z -> list Z -> Prop) js l :
  dense_based s -> repr h s f -> nth_error h (data_addr s) = Some l -> positive (shape_of s) ->
  ok_index ix (shape_of s) ->
  arrays (shares (data_addr s)) q -> listed h q v -> arrays (one_by_one h) q -> regular (slice_shape ix (shape_of s)) v ->
  (forall j, In j js <-> in_box j (slice_shape ix (shape_of s))) -> NoDup js ->
  StronglySorted R js -> (forall j k, R j k -> R k j -> False) ->
  forall h', h' = set_nth (data_addr s)
      (moves (map (fun j => (origin (data_addr s) q j, nested_elem v j, spot s (source_index ix (shape_of s) j))) js) l) h ->
  valid h' s
  /\ (forall k x, in_box k (slice_shape ix (shape_of s)) -> nested_at v k = Some x ->
       (forall j, in_box j (slice_shape ix (shape_of s)) -> R j k ->
          ~ reads_from q k s (source_index ix (shape_of s) j)) ->
       get_elem h' s (source_index ix (shape_of s) k) = Ok x)
  /\ (forall j k, in_box j (slice_shape ix (shape_of s)) -> in_box k (slice_shape ix (shape_of s)) -> R j k ->
       reads_from q k s (source_index ix (shape_of s) j) ->
       get_elem h' s (source_index ix (shape_of s) k) = get_elem h' s (source_index ix (shape_of s) j))
  /\ (forall i, in_box i (shape_of s) -> ~ hit ix (shape_of s) i -> get_elem h' s i = get_elem h s i).
Proof.
  intros Hd Hr Hl Hp Hok Hs Hli Ha Hreg Hjs Hnd So Anti h' ->. set (sh := shape_of s) in *.
  set (g := fun j => (origin (data_addr s) q j, nested_elem v j, spot s (source_index ix sh j))).
  set (L := map g js). destruct (repr_spot s h f Hd Hr) as (l0 & Hl0 & Hspot). rewrite Hl in Hl0. injection Hl0 as <-.
  assert (S1 : forall j, in_box j (slice_shape ix sh) -> in_box (source_index ix sh j) sh)
    by (intros j Hj; now apply source_index_in_box).
  assert (Hc : nth_error (set_nth (data_addr s) (moves L l) h) (data_addr s) = Some (moves L l)).
  { apply set_nth_error_same, nth_error_Some. congruence. }
  pose proof (dense_relist s h _ f l _ Hd Hr Hl Hc (moves_length L l)) as Hr'.
  assert (Hcells : dests_ok (length l) L).
  { apply Forall_forall. intros e He. apply in_map_iff in He. destruct He as (j & <- & Hj). apply Hjs in Hj.
    unfold g, dest. cbn [snd]. apply (Hspot _ (S1 j Hj)). }
  assert (Nw : NoDup (map dest L)).
  { unfold L. rewrite map_map.
    assert (Hq : forall j k, In j js -> In k js -> dest (g j) = dest (g k) -> j = k).
    { intros j k Hj Hk E. apply Hjs in Hj, Hk. unfold g, dest in E. cbn [snd] in E.
      apply (spot_inj s h f Hd Hr) in E; auto. apply (source_inj ix sh); auto. }
    clear - Hq Hnd. induction js as [|x js IH]; cbn [map]; [constructor|].
    inversion Hnd as [|? ? N1 N2]; subst. constructor.
    - intros Hin. apply in_map_iff in Hin. destruct Hin as (y & E & Hy). apply N1.
      rewrite (Hq x y); [exact Hy|now left|now right|now symmetry].
    - apply IH; [exact N2|]. intros j k Hj Hk. apply Hq; now right. }
  assert (Get' : forall i, in_box i sh -> get_elem (set_nth (data_addr s) (moves L l) h) s i
                                          = Ok (nth (Z.to_nat (spot s i)) (moves L l) VNone))
    by (intros i Hi; exact (repr_get _ s _ _ Hr' Hi)).
  assert (Get : forall i, in_box i sh -> get_elem h s i = Ok (nth (Z.to_nat (spot s i)) l VNone)).
  { intros i Hi. rewrite (repr_get _ s _ _ Hr Hi). f_equal. apply (Hspot i Hi). }
  assert (Spl : forall k, in_box k (slice_shape ix sh) -> exists js1 js2, js = js1 ++ k :: js2
     /\ (forall j, In j js1 -> R j k) /\ (forall j, In j js2 -> R k j)).
  { intros k Hk. apply Hjs in Hk. apply in_split in Hk. destruct Hk as (js1 & js2 & E). exists js1, js2. split; [exact E|].
    rewrite E in So. split; [intros j Hj; now apply (sorted_before R js1 k js2)|].
    clear - So. induction js1 as [|x js1 IH]; cbn [app] in So; inversion So as [|? ? A B]; subst; [|now apply IH].
    now rewrite Forall_forall in B. }
  split; [eexists; exact Hr'|]. split; [|split].
  - intros k x Hk Hx Hord. rewrite Get' by auto. f_equal. destruct (Spl k Hk) as (js1 & js2 & E & B1 & _).
    assert (Ex : nested_elem v k = x) by (unfold nested_elem; now rewrite Hx). rewrite <- Ex.
    assert (EL : L = map g js1 ++ g k :: map g js2) by (unfold L; now rewrite E, map_app).
    rewrite EL in Nw, Hcells |- *. unfold g at 2 in Nw. unfold g at 2 in Hcells. unfold g at 2.
    rewrite moves_at by assumption. destruct (origin (data_addr s) q k) as [c|] eqn:Eo; [|reflexivity].
    destruct (origin_ok _ _ _ _ _ _ _ _ Hl Hs Hli Ha Hreg Hk Eo) as [Hc0 ->]. apply moves_out; [|exact Hc0|].
    + apply Forall_app in Hcells. apply Hcells.
    + rewrite map_map. intros Hin. apply in_map_iff in Hin. destruct Hin as (j & Ej & Hj). unfold g, dest in Ej. cbn [snd] in Ej.
      assert (Bj : in_box j (slice_shape ix sh)) by (apply Hjs; rewrite E; apply in_or_app; now left).
      apply (Hord j Bj (B1 j Hj)). unfold origin in Eo. destruct (element_of q k) as [[t i]|] eqn:Et; [|discriminate].
      destruct (Nat.eq_dec (data_addr t) (data_addr s)) as [Ea|]; [|discriminate]. injection Eo as Eo.
      exists t, i. split; [exact Et|]. split; [exact Ea|]. congruence.
  - intros j k Hj Hk Hjk (t & i & Et & Ea & Ec). rewrite !Get' by auto. f_equal. destruct (Spl k Hk) as (js1 & js2 & E & B1 & B2).
    assert (EL : L = map g js1 ++ g k :: map g js2) by (unfold L; now rewrite E, map_app).
    assert (Eo : origin (data_addr s) q k = Some (spot s (source_index ix sh j))).
    { unfold origin. rewrite Et. destruct (Nat.eq_dec _ _); congruence. }
    rewrite EL in Nw, Hcells |- *.
    assert (I1 : In (spot s (source_index ix sh j)) (map dest (map g js1))).
    { rewrite map_map. apply in_map_iff. exists j. split; [reflexivity|].
      apply Hjs in Hj. rewrite E in Hj. apply in_app_or in Hj. destruct Hj as [Hj|[<-|Hj]]; [exact Hj| |]; exfalso.
      - exact (Anti _ _ Hjk Hjk).
      - exact (Anti _ _ Hjk (B2 j Hj)). }
    rewrite <- (moves_kept (map g js1) (g k) (map g js2) l _ Hcells Nw I1).
    unfold g at 2 in Nw. unfold g at 2 in Hcells. unfold g at 2. rewrite moves_at by assumption. now rewrite Eo.
  - intros i Hi Hn. rewrite Get', Get by auto. f_equal. apply moves_out; [exact Hcells|apply (Hspot i Hi)|].
    unfold L. rewrite map_map. intros Hin. apply in_map_iff in Hin. destruct Hin as (j & Ej & Hj). unfold g, dest in Ej. cbn [snd] in Ej.
    apply Hjs in Hj. apply (spot_inj s h f Hd Hr) in Ej; auto. apply Hn. exists j. auto.
Qed.

Lemma nested_put_frame {P} a (write : heap -> P -> pyval -> outcome) q :
  (forall h p v, updated a h (fst (write h p v))) -> framed a (nested_put write q).
Proof. intros Hw h [x p]. apply eval_frame. intros y. apply Hw. Qed.

Lemma strided_nested_run h t ix q L :
  (nix <- normalize_index ix (sshape t) ;;
   '(sh, st, off) <- index_strided nix (sshape t) (sstrides t) 0 ;;
   strided_slice_iad sh st off) = Ok L ->
  nested_setitem h (SStrided t) ix (NSeq q) = for_each L (nested_put (buf_write (sdata t)) (NSeq q)) h.
Proof.
  intros E. cbn [nested_setitem]. destruct (normalize_index ix (sshape t)) as [nix|]; cbn [bind] in *; [|discriminate].
  destruct (index_strided _ _ _ _) as [[[sh st] off]|]; cbn [bind eval] in *; [|discriminate].
  apply (strided_slice_gen_yields (baddr (sdata t)) h sh st off L E); [|apply updated_refl].
  apply nested_put_frame, buf_write_frame.
Qed.

Lemma dm_nested_run h sh rd rsh rs ro d ix q L :
  (nix <- normalize_index ix sh ;;
   '(sh', st, off) <- index_strided nix sh (make_strides sh) 0 ;;
   slice_iad sh (dm_iad sh rd rsh rs ro) sh' st off) = Ok L ->
  nested_setitem h (SDM sh rd rsh rs ro d) ix (NSeq q) =
  for_each L (nested_put (fun h r v => setitem h d (int_tuple r) (SrcSeq v)) (NSeq q)) h.
Proof.
  intros E. cbn [nested_setitem]. destruct (normalize_index ix sh) as [nix|]; cbn [bind] in *; [|discriminate].
  destruct (index_strided _ _ _ _) as [[[sh' st] off]|]; cbn [bind eval] in *; [|discriminate].
  destruct (dm_iad sh rd rsh rs ro) as [l|] eqn:El.
  2:{ unfold slice_iad in E. destruct (init_diophantine _ _); discriminate. }
  apply (slice_gen_yields (data_addr d) h sh (dm_gen sh rd rsh rs ro) l); [|exact E| |apply updated_refl].
  - now apply dm_gen_yields.
  - apply nested_put_frame. intros h0 p v. apply setitem_frame.
Qed.

(** * C84, exactly *)

(** The arrays in the list may share the data of the target: an element of the
    selection gets its value in the list, unless this value is read from the place
    of an element that was assigned before; then it gets what that element got. *)
Theorem C84_overlapping_exact : forall h t ix l v,
  valid h (SStrided t) -> positive (sshape t) -> ok_index ix (sshape t) ->
  listed h (NSeq l) v -> arrays (one_by_one h) (NSeq l) ->
  arrays (fun u => ~ In (baddr (sdata t)) (addrs u) \/ dense_based u) (NSeq l) ->
  regular (slice_shape ix (sshape t)) v ->
  exists h', nested_setitem h (SStrided t) ix (NSeq l) = (h', Ok tt)
    /\ valid h' (SStrided t)
    /\ (forall k x, in_box k (slice_shape ix (sshape t)) -> nested_at v k = Some x ->
         (forall j, in_box j (slice_shape ix (sshape t)) -> row_major_lt j k ->
            ~ reads_from (NSeq l) k (SStrided t) (source_index ix (sshape t) j)) ->
         get_elem h' (SStrided t) (source_index ix (sshape t) k) = Ok x)
    /\ (forall j k, in_box j (slice_shape ix (sshape t)) -> in_box k (slice_shape ix (sshape t)) -> row_major_lt j k ->
         reads_from (NSeq l) k (SStrided t) (source_index ix (sshape t) j) ->
         get_elem h' (SStrided t) (source_index ix (sshape t) k) = get_elem h' (SStrided t) (source_index ix (sshape t) j))
    /\ (forall i, in_box i (sshape t) -> ~ hit ix (sshape t) i ->
          get_elem h' (SStrided t) i = get_elem h (SStrided t) i).
Proof.
  intros h t ix q v [f Hr] Hp Hok Hli Ha Hs Hreg. pose proof Hr as (l & Hl & Ht & Hf).
  destruct (strided_positions t l ix Ht Hp Hok) as (L & EL & HL & Hnd & Hrng & Hfst).
  eexists. split; [|apply (moves_exact (SStrided t) h f ix (NSeq q) v row_major_lt (cart (slice_shape ix (sshape t))) l)];
    cbn [shape_of data_addr spot]; auto.
  - rewrite (strided_nested_run h t ix q L EL). rewrite <- (set_nth_same h (baddr (sdata t)) l) at 1 by exact Hl.
    rewrite (loop_moves _ (fun p => boff (sdata t) + p) (baddr (sdata t)) h l q v _ Hl Hs Hli Ha Hreg L); [| | |reflexivity].
    + rewrite <- Hfst, map_map. do 2 f_equal. f_equal. apply map_ext_in. intros [j p] Hin. cbn [fst snd].
      apply HL in Hin. destruct Hin as [Bj ->]. reflexivity.
    + intros l1 p x Hlen Hin. apply in_map_iff in Hin. destruct Hin as ([j p'] & <- & Hin). cbn [snd].
      rewrite Forall_forall in Hrng. specialize (Hrng _ Hin). cbn [snd] in Hrng.
      unfold buf_write, buf_set. rewrite (cell_ok _ _ l1) by (apply set_nth_error_same, nth_error_Some; congruence). cbn [bind].
      rewrite pyset_ok by (unfold zlen in *; rewrite Hlen; exact Hrng). cbn [bind]. now rewrite set_nth_twice.
    + apply Forall_forall. intros [j p] Hin. apply HL in Hin. apply Hin.
  - exact I.
  - intros j. apply In_cart.
  - apply sorted_NoDup, cart_sorted.
  - apply cart_sorted.
  - intros j k A B. exact (row_major_lt_irrefl j (row_major_lt_trans _ _ _ A B)).
Qed.
Print Assumptions C84_overlapping_exact.

(** A DM visits the elements of the array, not those of the selection, in order. *)
Theorem C84_dm_exact : forall h0 h s ix l v,
  built_dm h0 h s -> slice_writes s -> ok_index ix (shape_of s) ->
  listed h (NSeq l) v -> arrays (one_by_one h) (NSeq l) ->
  arrays (fun u => ~ In (data_addr s) (addrs u) \/ dense_based u) (NSeq l) ->
  regular (slice_shape ix (shape_of s)) v ->
  exists h', nested_setitem h s ix (NSeq l) = (h', Ok tt)
    /\ valid h' s
    /\ (forall k x, in_box k (slice_shape ix (shape_of s)) -> nested_at v k = Some x ->
         (forall j, in_box j (slice_shape ix (shape_of s)) ->
            row_major_lt (source_index ix (shape_of s) j) (source_index ix (shape_of s) k) ->
            ~ reads_from (NSeq l) k s (source_index ix (shape_of s) j)) ->
         get_elem h' s (source_index ix (shape_of s) k) = Ok x)
    /\ (forall j k, in_box j (slice_shape ix (shape_of s)) -> in_box k (slice_shape ix (shape_of s)) ->
         row_major_lt (source_index ix (shape_of s) j) (source_index ix (shape_of s) k) ->
         reads_from (NSeq l) k s (source_index ix (shape_of s) j) ->
         get_elem h' s (source_index ix (shape_of s) k) = get_elem h' s (source_index ix (shape_of s) j))
    /\ (forall i, in_box i (shape_of s) -> ~ hit ix (shape_of s) i -> get_elem h' s i = get_elem h s i).
Proof.
  intros h0 h s ix q v Hb Hw Hok Hli Ha Hs Hreg.
  pose proof (seq_rank h q v _ Hli Hreg) as Hne.
  destruct (built_dm_ok h0 h s Hb) as (f & Hr & Hz & Hdm & Hp).
  destruct s as [| | | | | |sh rd rsh rs ro d]; try contradiction. cbn [shape_of] in *.
  assert (He : elem_data d) by (destruct d; try contradiction; exact I).
  set (s := SDM sh rd rsh rs ro d) in *.
  assert (Hds : dense_based s) by (destruct d; try contradiction; exact I).
  pose proof Hr as (g & Hgd & Hm & Hf).
  destruct (dm_positions _ _ _ _ _ _ ix Hm Hp Hok Hne) as (L & EL & HL & Hnd & HbL).
  assert (Hsrc1 : forall j, in_box j (slice_shape ix sh) -> in_box (source_index ix sh j) sh)
    by (intros j Hj; now apply source_index_in_box).
  destruct (repr_spot s h f Hds Hr) as (l & Hl & Hspot). cbn [data_addr s] in Hl.
  assert (So : StronglySorted (fun e e' => earlier s ix (fst e) (fst e')) L).
  { set (R := fun p q => forall i k, in_box i sh -> in_box k sh -> p = dm_index rd rs ro i -> q = dm_index rd rs ro k -> row_major_lt i k).
    assert (So : StronglySorted R (map snd L)).
    { destruct (normalize_index ix sh) as [nix|]; cbn [bind] in EL; [|discriminate].
      destruct (index_strided _ _ _ _) as [[[sh' st'] off']|]; cbn [bind] in EL; [|discriminate].
      apply (slice_iad_sorted R _ _ _ _ _ _ _ (dm_iad_ok _ _ _ _ _ _ Hm) EL).
      rewrite map_map. cbn [snd]. apply (sorted_map _ row_major_lt); [|apply cart_sorted].
      intros i0 k0 Hi Hk0 Hlt i' k' Hi' Hk' Ei Ek'. apply In_cart in Hi, Hk0.
      apply (dm_inj _ _ _ _ _ _ Hm) in Ei, Ek'; auto. now subst. }
    apply sorted_unmap in So. revert So. apply sorted_impl. intros [j1 p1] [k1 q1] H1 H2 Hlt. cbn [fst snd] in *.
    apply HL in H1, H2. destruct H1 as [Bj ->]. destruct H2 as [Bk ->]. unfold earlier, s. cbn [shape_of].
    apply Hlt; auto. }
  assert (Anti : forall j k, earlier s ix j k -> earlier s ix k j -> False).
  { intros j k A B. unfold earlier, s in A, B. exact (row_major_lt_irrefl _ (row_major_lt_trans _ _ _ A B)). }
  assert (Hdb : dense_based d) by (destruct d; try contradiction; exact I).
  eexists. split; [|apply (moves_exact s h f ix (NSeq q) v (earlier s ix) (map fst L) l)]; cbn [shape_of s]; auto.
  - unfold s. rewrite (dm_nested_run _ _ _ _ _ _ _ _ _ _ EL). rewrite <- (set_nth_same h (data_addr d) l) at 1 by exact Hl.
    rewrite (loop_moves _ (spot d) (data_addr d) h l q v _ Hl Hs Hli Ha Hreg L); [| | |reflexivity].
    + cbn [data_addr]. rewrite map_map. do 2 f_equal. f_equal. apply map_ext_in. intros [j p] Hin. cbn [fst snd].
      apply HL in Hin. destruct Hin as [Bj ->]. reflexivity.
    + intros l1 p x Hlen Hin. apply in_map_iff in Hin. destruct Hin as ([j p'] & <- & Hin). cbn [snd].
      rewrite Forall_forall in HbL. specialize (HbL _ Hin). cbn [snd] in HbL.
      assert (Hc : nth_error (set_nth (data_addr d) l1 h) (data_addr d) = Some l1) by (apply set_nth_error_same, nth_error_Some; congruence).
      pose proof (dense_relist d h _ g l l1 Hdb Hgd Hl Hc Hlen) as Rd.
      now rewrite (elem_write_spot d _ _ l1 p' _ He Rd Hc HbL), set_nth_twice.
    + apply Forall_forall. intros [j p] Hin. apply HL in Hin. apply Hin.
  - intros j. split.
    + intros Hin. apply in_map_iff in Hin. destruct Hin as ([j' p] & <- & Hin). now apply HL in Hin.
    + intros Hj. apply in_map_iff. exists (j, dm_index rd rs ro (source_index ix sh j)). split; [reflexivity|now apply HL].
  - clear - So Anti. induction So as [|e L So IH Hf]; cbn [map]; constructor; auto. intros Hin.
    apply in_map_iff in Hin. destruct Hin as (e' & E & Hin). rewrite Forall_forall in Hf. specialize (Hf _ Hin).
    rewrite E in Hf. exact (Anti _ _ Hf Hf).
  - clear - So. induction So as [|e L So IH Hf]; cbn [map]; constructor; auto. apply Forall_map. exact Hf.
Qed.
Print Assumptions C84_dm_exact.

(** The exchange of the rows of C84_exchange_refuted meets the hypotheses; the
    value for [1; 0] is read from the place of [0; 0], assigned before. *)
Example C84_exact_case : exists t r0 r1 h v,
  square = Ok (SStrided t, h) /\ valid h (SStrided t) /\ positive (sshape t) /\ ok_index rows_01 (sshape t)
  /\ getitem h (SStrided t) (XItem (IInt 0)) = Ok (ISto r0, h) /\ getitem h (SStrided t) (XItem (IInt 1)) = Ok (ISto r1, h)
  /\ listed h (NSeq [NSto r1; NSto r0]) v /\ arrays (one_by_one h) (NSeq [NSto r1; NSto r0])
  /\ arrays (fun u => ~ In (baddr (sdata t)) (addrs u) \/ dense_based u) (NSeq [NSto r1; NSto r0])
  /\ regular (slice_shape rows_01 (sshape t)) v
  /\ row_major_lt [0; 0] [1; 0]
  /\ reads_from (NSeq [NSto r1; NSto r0]) [1; 0] (SStrided t) (source_index rows_01 (sshape t) [0; 0])
  /\ ~ reads_from (NSeq [NSto r1; NSto r0]) [0; 0] (SStrided t) (source_index rows_01 (sshape t) [0; 0]).
Proof.
  destruct (C22_fromobject_elements CStrided [] (VSeq [VSeq [VInt 1; VInt 2]; VSeq [VInt 3; VInt 4]]) [2; 2] None)
    as (a & h & E & _ & _ & _ & V & _); [cbn; repeat (split || constructor || lia)|exact I|discriminate|].
  pose proof E as E0. vm_compute in E0. injection E0 as <- <-.
  assert (Row : forall k, -2 < k < 2 -> ok_index (XItem (IInt k)) [2; 2])
    by (intros k Hk; split; [repeat constructor; cbn; lia|right; cbn; lia]).
  assert (Pos : positive [2; 2]) by repeat constructor.
  pose proof V as [f (l & Hl & Ht & _)].
  destruct (strided_slice _ _ l (XItem (IInt 0)) Hl Ht Pos (Row 0 ltac:(lia)) ltac:(discriminate)) as (t0 & G0 & _ & A0 & _ & O0 & _).
  destruct (strided_slice _ _ l (XItem (IInt 1)) Hl Ht Pos (Row 1 ltac:(lia)) ltac:(discriminate)) as (t1 & G1 & _ & A1 & _ & O1 & _).
  vm_compute in G0. injection G0 as <-. vm_compute in G1. injection G1 as <-.
  eexists _, _, _, _, (VSeq [VSeq [VInt 3; VInt 4]; VSeq [VInt 1; VInt 2]]).
  split; [exact E|]. split; [exact V|]. split; [exact Pos|]. split; [split; [repeat constructor; cbn; lia|right; cbn; lia]|].
  split; [vm_compute; reflexivity|]. split; [vm_compute; reflexivity|].
  split; [|split; [|split; [|split; [|split; [|split]]]]].
  - assert (B : forall i n, in_box i [n] -> n = 2 -> i = [0] \/ i = [1]).
    { intros i n Hi ->. apply in_box_1 in Hi. destruct Hi as (z & -> & Hz). assert (z = 0 \/ z = 1) as [->| ->] by lia; auto. }
    cbn [listed]. repeat split; try (cbn; lia); try (repeat constructor);
      intros i Hi; (destruct (B i 2 Hi eq_refl) as [->| ->]); eexists; (split; [reflexivity|vm_compute; reflexivity]).
  - cbn [arrays]. split; [|split; [|exact I]]; (apply obo_plain; [|discriminate|exact I]);
      eexists (fun i => _); exists l; (split; [exact Hl|split; [assumption|reflexivity]]).
  - cbn [arrays]. split; [right; exact I|split; [right; exact I|exact I]].
  - change (slice_shape rows_01 _) with [2; 2]. cbn [regular]. split; [reflexivity|]. split; [discriminate|].
    repeat constructor; discriminate.
  - constructor; lia.
  - eexists _, _. split; [reflexivity|]. split; vm_compute; reflexivity.
  - intros (t & i & E1 & _ & E2). cbn in E1. injection E1 as <- <-. vm_compute in E2. discriminate.
Qed.

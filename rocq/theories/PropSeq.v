(** C109: unpacking, membership, reversed() and truth of an array. *)
From Coq Require Import ZifyBool.
From Verif Require Import Py SliceTools Basics Storage Enumerate Sequence Spec SliceFacts IndexFacts
  CompressFacts ReduceFacts SolverFacts SolveFacts Repr ReprFacts ViewFacts BuildFacts SparseFacts
  ConvFacts FromFacts DMFacts ReadFacts MapFacts ChainFacts WriteFacts EffectFacts PropRead PropWrite PropIndex PropSolver
  PropEnum PropLen PropNested.
From Coq Require Import List.

Lemma one_item h s k : valid h s -> (forall b, s <> SBuffer b) -> positive (shape_of s) -> shape_of s <> [] -> iterable h s ->
  exists it h1, getitem h s (XItem (IInt k)) = Ok (it, h1) /\ extends h h1
    /\ (length (shape_of s) = 1%nat -> h1 = h /\ exists v, it = IVal v)
    /\ (length (shape_of s) <> 1%nat -> exists t, it = ISto t /\ shape_of t = tl (shape_of s)).
Proof.
  intros [f Hr] Hb Hp Hne D.
  assert (Hok : ok_index (XItem (IInt k)) (shape_of s)).
  { split; [repeat constructor|right; destruct (shape_of s); [congruence|cbn; lia]]. }
  assert (Es : slice_shape (XItem (IInt k)) (shape_of s) = tl (shape_of s)).
  { destruct (shape_of s); [congruence|]. apply int_slice_shape. }
  destruct (Nat.eq_dec (length (shape_of s)) 1) as [L|L].
  - assert (E0 : tl (shape_of s) = []) by (destruct (shape_of s) as [|? [|]]; easy).
    rewrite E0 in Es.
    eexists _, h. split; [apply (getitem_element s h f); auto; intros b ->; now contradiction (Hb b)|].
    split; [apply extends_refl|]. split; [eauto|now intros].
  - assert (N : tl (shape_of s) <> []) by (destruct (shape_of s) as [|? [|]]; cbn in *; congruence).
    assert (Hs : safe_index s (XItem (IInt k))).
    { destruct D as [D|[D|(h0 & h1 & D & _)]]; [now contradiction L|now apply plain_safe|].
      destruct (built_dm_ok h0 h1 s D) as (f1 & Hr1 & Hz & _).
      apply (safe_zero s h1 f1); auto. now rewrite Es. }
    destruct (getitem_slice s h f _ Hr Hp Hok ltac:(now rewrite Es) Hs) as (s' & h' & Eg & Esh & _ & Ee & _).
    exists (ISto s'), h'. split; [exact Eg|]. split; [exact Ee|]. split; [now intros|].
    intros _. exists s'. split; [reflexivity|congruence].
Qed.

Lemma iterable_extends h h1 s : iterable h s -> extends h h1 -> iterable h1 s.
Proof.
  intros [D|[D|(h0 & h2 & D & D2)]] E; [now left|right; now left|right; right].
  exists h0, h2. split; [exact D|]. now apply (extends_trans h2 h).
Qed.
Lemma valid_extends h h1 s : valid h s -> extends h h1 -> valid h1 s.
Proof. intros [f Hr] E. exists f. now apply (repr_extends h). Qed.

Lemma one_next h s k : valid h s -> (forall b, s <> SBuffer b) -> positive (shape_of s) -> shape_of s <> [] -> iterable h s ->
  exists it h1, next_item h s k = Ok (Some it, h1) /\ extends h h1
    /\ getitem h s (XItem (IInt k)) = Ok (it, h1)
    /\ (length (shape_of s) = 1%nat -> h1 = h /\ exists v, it = IVal v)
    /\ (length (shape_of s) <> 1%nat -> exists t, it = ISto t /\ shape_of t = tl (shape_of s)).
Proof.
  intros Hv Hb Hp Hne D. destruct (one_item h s k Hv Hb Hp Hne D) as (it & h1 & Eg & Ee & A & B).
  exists it, h1. split; [|auto]. unfold next_item.
  destruct s; [now contradiction (Hb b)|..]; now rewrite Eg.
Qed.

(** ** Unpacking *)

(** a_1, ..., a_n = s on an array other than a Buffer never succeeds, whatever
    the number n of names: not even with n = len(s). *)
Lemma take_items_ok n : forall k h s,
  valid h s -> (forall b, s <> SBuffer b) -> positive (shape_of s) -> shape_of s <> [] -> iterable h s ->
  exists l h', take_items n k h s = Ok (l, h') /\ extends h h'.
Proof.
  induction n as [|n IH]; intros k h s Hv Hb Hp Hne D; cbn [take_items].
  - exists [], h. split; [reflexivity|apply extends_refl].
  - destruct (one_next h s k Hv Hb Hp Hne D) as (it & h1 & -> & Ee & _). cbn [bind].
    destruct (IH (k + 1) h1 s) as (l & h2 & -> & E2); auto.
    { now apply (valid_extends h). } { now apply (iterable_extends h). }
    cbn [bind]. exists (it :: l), h2. split; [reflexivity|]. now apply (extends_trans h h1).
Qed.

Theorem C109_unpack_refuted : forall n h s,
  valid h s -> (forall b, s <> SBuffer b) -> positive (shape_of s) -> shape_of s <> [] -> iterable h s ->
  unpack n h s = Raise ValueError.
Proof.
  intros n h s Hv Hb Hp Hne D. unfold unpack.
  destruct (take_items_ok n 0 h s Hv Hb Hp Hne D) as (l & h1 & -> & E1). cbn [bind].
  destruct (one_next h1 s (Z.of_nat n)) as (it & h2 & -> & _); auto.
  - now apply (valid_extends h).
  - now apply (iterable_extends h).
Qed.
Print Assumptions C109_unpack_refuted.

Lemma buffer_next h b k : valid h (SBuffer b) -> 0 <= k ->
  (k < bsize b -> exists v, next_item h (SBuffer b) k = Ok (Some (IVal v), h)
     /\ getitem h (SBuffer b) (XItem (IInt k)) = Ok (IVal v, h))
  /\ (bsize b <= k -> next_item h (SBuffer b) k = Ok (None, h)).
Proof.
  intros [f (vs & Hh & _)] Hk. pose proof Hh as (l & Hl & Ho & Hs & He & _). unfold next_item. split; intros Hlt.
  - replace (k <? bsize b) with true by lia. rewrite (cell_ok _ _ _ Hl). cbn [bind].
    rewrite (pyget_ok _ _ VNone) by lia. cbn [bind]. eexists. split; [reflexivity|].
    cbn [getitem]. unfold buffer_getitem, buf_get. cbn [buf_complete_index bind]. rewrite (cell_ok _ _ _ Hl). cbn [bind].
    rewrite (pyget_ok _ _ VNone) by lia. cbn [bind]. reflexivity.
  - now replace (k <? bsize b) with false by lia.
Qed.

Lemma take_buffer n : forall k h b, valid h (SBuffer b) -> 0 <= k ->
  (k + Z.of_nat n <= bsize b -> exists l, take_items n k h (SBuffer b) = Ok (l, h) /\ length l = n
     /\ forall j, (j < n)%nat -> exists v, nth_error l j = Some (IVal v)
          /\ getitem h (SBuffer b) (XItem (IInt (k + Z.of_nat j))) = Ok (IVal v, h))
  /\ (k <= bsize b -> bsize b < k + Z.of_nat n -> take_items n k h (SBuffer b) = Raise ValueError).
Proof.
  induction n as [|n IH]; intros k h b Hv Hk; cbn [take_items].
  - split; intros; [|lia]. exists []. repeat split; auto. intros; lia.
  - destruct (buffer_next h b k Hv Hk) as [A B]. destruct (IH (k + 1) h b Hv ltac:(lia)) as [C D]. split; intros H.
    + destruct (A ltac:(lia)) as (v & -> & Eg). cbn [bind].
      destruct (C ltac:(lia)) as (l & -> & Hl & Hn). cbn [bind]. exists (IVal v :: l).
      split; [reflexivity|]. split; [cbn [length]; congruence|]. intros [|j] Hj.
      * exists v. split; [reflexivity|]. now replace (k + Z.of_nat 0) with k by lia.
      * destruct (Hn j ltac:(lia)) as (w & Hw & Gw). exists w. split; [exact Hw|].
        now replace (k + Z.of_nat (S j)) with (k + 1 + Z.of_nat j) by lia.
    + intros H2. destruct (Z.eq_dec k (bsize b)) as [->|Hn].
      * rewrite B by lia. reflexivity.
      * destruct (A ltac:(lia)) as (v & -> & _). cbn [bind]. rewrite D by lia. reflexivity.
Qed.

(** On a Buffer it succeeds exactly with as many names as elements, and gives
    the elements in order. *)
Theorem C109_unpack_buffer : forall n h b, valid h (SBuffer b) ->
  (Z.of_nat n = bsize b -> exists l, unpack n h (SBuffer b) = Ok (l, h) /\ length l = n
     /\ forall j, (j < n)%nat -> exists v, nth_error l j = Some (IVal v)
          /\ getitem h (SBuffer b) (XItem (IInt (Z.of_nat j))) = Ok (IVal v, h))
  /\ (Z.of_nat n <> bsize b -> unpack n h (SBuffer b) = Raise ValueError).
Proof.
  intros n h b Hv. assert (Hs : 0 <= bsize b).
  { destruct (C53_buffer_partial h b Hv) as (l & _ & <- & _). unfold zlen. lia. }
  destruct (take_buffer n 0 h b Hv ltac:(lia)) as [A B].
  destruct (buffer_next h b (Z.of_nat n) Hv ltac:(lia)) as [C D]. unfold unpack. split; intros H.
  - destruct (A ltac:(lia)) as (l & -> & Hl & Hn). cbn [bind]. rewrite D by lia. cbn [bind]. eauto.
  - destruct (Z_lt_le_dec (bsize b) (Z.of_nat n)) as [G|G].
    + rewrite B by lia. reflexivity.
    + destruct (A ltac:(lia)) as (l & -> & _). cbn [bind]. destruct (C ltac:(lia)) as (v & -> & _). reflexivity.
Qed.
Print Assumptions C109_unpack_buffer.

(** ** Membership *)

(** x is an element of a one-dimensional array. *)
Definition has_element (h : heap) (s : storage) (x : pyval) : Prop :=
  exists k, 0 <= k < nth 0 (shape_of s) 0 /\ getitem h s (XItem (IInt k)) = Ok (IVal x, h).

Lemma contains_true d : forall n k h s x,
  valid h s -> positive (shape_of s) -> length (shape_of s) = 1%nat -> 0 <= k ->
  k + Z.of_nat d < nth 0 (shape_of s) 0 ->
  getitem h s (XItem (IInt (k + Z.of_nat d))) = Ok (IVal x, h) -> (d < n)%nat ->
  contains n k h s x = Some (Ok true).
Proof.
  induction d as [|d IH]; intros n k h s x Hv Hp H1 Hk Hd Hg Hn; (destruct n as [|n]; [lia|]); cbn [contains].
  - rewrite Nat2Z.inj_0, Z.add_0_r in *. assert (E : next_item h s k = Ok (Some (IVal x), h)).
    { destruct s; try (unfold next_item; now rewrite Hg).
      destruct (buffer_next h b k Hv Hk) as [A _]. cbn in Hd. destruct (A ltac:(lia)) as (v & E & G). congruence. }
    rewrite E. cbn [item_is]. now rewrite veqb_refl.
  - assert (E : exists v, next_item h s k = Ok (Some (IVal v), h)).
    { assert (Hne : shape_of s <> []) by (intros N; now rewrite N in H1).
      assert (CS : (exists b, s = SBuffer b) \/ forall b, s <> SBuffer b) by (destruct s; eauto; right; discriminate).
      destruct CS as [[b ->]|Hb].
      - destruct (buffer_next h b k Hv Hk) as [A _]. cbn in Hd. destruct (A ltac:(lia)) as (v & E & _). eauto.
      - destruct (one_next h s k Hv Hb Hp Hne (or_introl H1)) as (it & h1 & E & _ & _ & F & _).
        destruct (F H1) as [-> [v ->]]. eauto. }
    destruct E as [v ->]. cbn [item_is]. destruct (veqb v x); [reflexivity|].
    apply (IH n (k + 1)); auto; try lia.
    now replace (k + 1 + Z.of_nat d) with (k + Z.of_nat (S d)) by lia.
Qed.

(** x in s is True when some element equals x. *)
Theorem C109_in_true : forall h s x,
  valid h s -> positive (shape_of s) -> length (shape_of s) = 1%nat -> has_element h s x ->
  forall n, nth 0 (shape_of s) 0 <= Z.of_nat n -> contains n 0 h s x = Some (Ok true).
Proof.
  intros h s x Hv Hp H1 (k & Hk & Hg) n Hn.
  apply (contains_true (Z.to_nat k)); auto; try lia. rewrite Z2Nat.id by lia. exact Hg.
Qed.
Print Assumptions C109_in_true.

(** When none does, the test never ends for any class but Buffer ... *)
Theorem C109_in_never_ends_refuted : forall n k h s x,
  valid h s -> (forall b, s <> SBuffer b) -> positive (shape_of s) -> length (shape_of s) = 1%nat ->
  ~ has_element h s x -> contains n k h s x = None.
Proof.
  induction n as [|n IH]; intros k h s x Hv Hb Hp H1 Hno; cbn [contains]; [reflexivity|].
  assert (Hne : shape_of s <> []) by (intros N; now rewrite N in H1).
  destruct (one_next h s k Hv Hb Hp Hne (or_introl H1)) as (it & h1 & -> & _ & Eg & F & _).
  destruct (F H1) as [-> [v ->]]. cbn [item_is]. destruct (veqb v x) eqn:Ex; [|now apply IH].
  apply veqb_eq in Ex. subst v. contradiction Hno. exists (k mod nth 0 (shape_of s) 0).
  split; [|now rewrite <- getitem_int_wraps].
  apply Z.mod_pos_bound. destruct (shape_of s); [congruence|]. inversion Hp; subst. cbn. lia.
Qed.
Print Assumptions C109_in_never_ends_refuted.

(** ... where it is False. *)
Theorem C109_in_buffer : forall h b x, valid h (SBuffer b) -> ~ has_element h (SBuffer b) x ->
  forall n, bsize b < Z.of_nat n -> contains n 0 h (SBuffer b) x = Some (Ok false).
Proof.
  intros h b x Hv Hno.
  assert (K : forall n k, 0 <= k <= bsize b -> bsize b < k + Z.of_nat n -> contains n k h (SBuffer b) x = Some (Ok false)).
  { induction n as [|n IH]; intros k Hk Hn; [lia|]. cbn [contains].
    destruct (buffer_next h b k Hv ltac:(lia)) as [A B].
    destruct (Z.eq_dec k (bsize b)) as [->|Hne].
    - now rewrite B by lia.
    - destruct (A ltac:(lia)) as (v & -> & Eg). cbn [item_is]. destruct (veqb v x) eqn:Ex; [|apply IH; lia].
      apply veqb_eq in Ex. subst v. contradiction Hno. exists k. split; [cbn; lia|exact Eg]. }
  intros n Hn. apply K; [|lia]. destruct (C53_buffer_partial h b Hv) as (l & _ & <- & _). unfold zlen. lia.
Qed.
Print Assumptions C109_in_buffer.

(** On an array of two or more dimensions a value is compared with slices, and
    the test never ends. *)
Theorem C109_in_slices_refuted : forall n k h s x,
  valid h s -> (forall b, s <> SBuffer b) -> positive (shape_of s) -> (2 <= length (shape_of s))%nat -> iterable h s ->
  contains n k h s x = None.
Proof.
  induction n as [|n IH]; intros k h s x Hv Hb Hp H2 D; cbn [contains]; [reflexivity|].
  assert (Hne : shape_of s <> []) by (intros N; rewrite N in H2; cbn in H2; lia).
  destruct (one_next h s k Hv Hb Hp Hne D) as (it & h1 & -> & Ee & Eg & _ & F).
  destruct (F ltac:(lia)) as (t & -> & _). cbn [item_is]. apply IH; auto.
  - now apply (valid_extends h).
  - now apply (iterable_extends h).
Qed.
Print Assumptions C109_in_slices_refuted.

(** ** reversed() *)

(** reversed(s) is exact on all arrays: len(s) items, the j-th of them being
    s[len(s) - 1 - j], read in a heap that contains all that was there. *)
Theorem C109_reversed : forall h s,
  valid h s -> positive (shape_of s) -> shape_of s <> [] -> iterable h s ->
  exists l h', reversed_items h s = Ok (l, h') /\ extends h h' /\ len_of s = Ok (zlen l)
    /\ forall j, 0 <= j < zlen l -> exists it h1 h2, nth_error l (Z.to_nat j) = Some it
         /\ extends h h1 /\ getitem h1 s (XItem (IInt (zlen l - 1 - j))) = Ok (it, h2) /\ extends h2 h'.
Proof.
  intros h s Hv Hp Hne D. unfold reversed_items. destruct (shape_of s) as [|m sh] eqn:Es; [congruence|].
  rewrite (len_cons s m sh Es). cbn [bind]. assert (Hm : 0 < m) by now inversion Hp.
  assert (K : forall n h, Z.of_nat n <= m -> valid h s -> iterable h s ->
     exists l h', backwards n h s = Ok (l, h') /\ extends h h' /\ length l = n
       /\ forall j, (j < n)%nat -> exists it h1 h2, nth_error l j = Some it
          /\ extends h h1 /\ getitem h1 s (XItem (IInt (Z.of_nat n - 1 - Z.of_nat j))) = Ok (it, h2) /\ extends h2 h').
  { induction n as [|n IH]; intros g Hn Hg Dg; cbn [backwards].
    - exists [], g. split; [reflexivity|]. split; [apply extends_refl|]. split; [reflexivity|]. intros; lia.
    - assert (G : exists it g1, getitem g s (XItem (IInt (Z.of_nat n))) = Ok (it, g1) /\ extends g g1).
      { assert (CS : (exists b, s = SBuffer b) \/ forall b, s <> SBuffer b) by (destruct s; eauto; right; discriminate).
        destruct CS as [[b ->]|Hb].
        - destruct (buffer_next g b (Z.of_nat n) Hg ltac:(lia)) as [A _].
          cbn in Es. injection Es as <- <-. destruct (A ltac:(lia)) as (v & _ & E).
          exists (IVal v), g. split; [exact E|apply extends_refl].
        - destruct (one_item g s (Z.of_nat n) Hg Hb) as (it & g1 & E & X & _); auto; rewrite ?Es; auto; try congruence.
          eauto. }
      destruct G as (it & g1 & Eg & Ee). rewrite Eg.
      destruct (IH g1) as (l & g2 & -> & E2 & Hl & Hj); try lia.
      { now apply (valid_extends g). } { now apply (iterable_extends g). }
      cbn [bind]. exists (it :: l), g2. split; [reflexivity|]. split; [now apply (extends_trans g g1)|].
      split; [cbn [length]; congruence|]. intros [|j] Hj'.
      + exists it, g, g1. split; [reflexivity|]. split; [apply extends_refl|].
        split; [|exact E2]. now replace (Z.of_nat (S n) - 1 - Z.of_nat 0) with (Z.of_nat n) by lia.
      + destruct (Hj j ltac:(lia)) as (it' & h1 & h2 & A & B & C & F). exists it', h1, h2.
        split; [exact A|]. split; [now apply (extends_trans g g1)|]. split; [|exact F].
        now replace (Z.of_nat (S n) - 1 - Z.of_nat (S j)) with (Z.of_nat n - 1 - Z.of_nat j) by lia. }
  destruct (K (Z.to_nat m) h ltac:(lia) Hv D) as (l & h' & E & X & Hl & Hj).
  exists l, h'. split; [exact E|]. split; [exact X|]. unfold zlen. rewrite Hl, Z2Nat.id by lia. split; [reflexivity|].
  intros j Hj'. destruct (Hj (Z.to_nat j) ltac:(lia)) as (it & h1 & h2 & A & B & C & F). exists it, h1, h2.
  split; [exact A|]. split; [exact B|]. split; [|exact F]. rewrite !Z2Nat.id in C by lia. exact C.
Qed.
Print Assumptions C109_reversed.

(** ** Truth *)

(** [if s:] follows the first axis alone: an array without axes, which has one
    element, raises IndexError, and one of shape (n, 0), without elements, is true. *)
Theorem C109_truth : forall s,
  match shape_of s with
  | [] => truth s = Raise IndexError
  | n :: _ => truth s = Ok (negb (n =? 0))
  end.
Proof. intros s. unfold truth, len_of. destruct (shape_of s); reflexivity. Qed.
Print Assumptions C109_truth.

(** The arrays that fromobject makes meet the hypotheses: [1, 2] cannot be
    unpacked into two names, 2 is in it, 3 is not decided in 50 items, reversed
    is [2, 1].  On a Buffer the first gives 1, 2 and the third False. *)
Example C109_case :
  let src := SrcSeq (VSeq [VInt 1; VInt 2]) in
  ('(s, h) <- fromobject CCOO [] src fo_default ;; unpack 2 h s) = Raise ValueError
  /\ ('(s, h) <- fromobject CCOO [] src fo_default ;; '(l, _) <- reversed_items h s ;;
      Ok (l, contains 2 0 h s (VInt 2), contains 50 0 h s (VInt 3), truth s))
     = Ok ([IVal (VInt 2); IVal (VInt 1)], Some (Ok true), None, Ok true)
  /\ ('(s, h) <- fromobject CBuffer [] src fo_default ;; '(l, _) <- unpack 2 h s ;; '(r, _) <- reversed_items h s ;;
      Ok (l, r, contains 3 0 h s (VInt 3)))
     = Ok ([IVal (VInt 1); IVal (VInt 2)], [IVal (VInt 2); IVal (VInt 1)], Some (Ok false)).
Proof. vm_compute. repeat split. Qed.

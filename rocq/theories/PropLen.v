(** C76: len(). *)
From Coq Require Import ZifyBool.
From Verif Require Import Py SliceTools Basics Storage Spec SliceFacts IndexFacts
  CompressFacts ReduceFacts SolverFacts SolveFacts Repr ReprFacts ViewFacts BuildFacts SparseFacts
  ConvFacts FromFacts DMFacts ReadFacts MapFacts ChainFacts PropRead PropIndex.

(** An array made from a list is as long as the list, in every class. *)
Theorem C76_list : forall c h l sh u s h',
  regular sh (VSeq l) -> class_rank c sh ->
  (c = CCSR -> exists i x, in_box i sh /\ nested_at (VSeq l) i = Some x /\ x <> VNone /\ x <> chosen VNone u) ->
  fromobject c h (SrcSeq (VSeq l)) (fo_unspecified u) = Ok (s, h') ->
  len_of s = Ok (zlen l).
Proof.
  intros c h l sh u s h' Hreg Hc Hsp E.
  destruct (C22_fromobject_elements c h (VSeq l) sh u Hreg Hc Hsp) as (s1 & h1 & E1 & _ & Hs & _).
  rewrite E in E1. injection E1 as <- <-. unfold len_of. rewrite Hs.
  destruct sh as [|n sh]; [contradiction Hreg|]. destruct Hreg as (<- & _). reflexivity.
Qed.
Print Assumptions C76_list.

Lemma len_cons s n sh : shape_of s = n :: sh -> len_of s = Ok n.
Proof. unfold len_of. intros ->. reflexivity. Qed.

Lemma len_shape s n : len_of s = Ok n -> exists sh, shape_of s = n :: sh.
Proof.
  unfold len_of. destruct (shape_of s) as [|m sh]; [discriminate|]. cbn. intros [= <-]. eauto.
Qed.

(** [len(s[a:b:c])] is the number of positions below [len(s)] that the slice
    selects: for every array, however it was obtained (DM over DM and slices of
    slices included) and whether or not it is well formed, whenever the slice
    exists. *)
Ltac step H := match type of H with
  | bind ?x _ = Ok _ => destruct x as [?|?] eqn:?; cbn [bind] in H; [|discriminate H]
  | (let '(_, _) := ?p in _) = Ok _ => destruct p eqn:?
  end.

Lemma mk_strided_shape sh st b t : mk_strided sh st b = Ok t -> sshape t = sh.
Proof. unfold mk_strided. intros E. repeat step E. now injection E as <-. Qed.
Lemma mk_coo_shape sh i d s : mk_coo sh i d = Ok s -> shape_of s = sh.
Proof. unfold mk_coo. intros E. repeat step E. now injection E as <-. Qed.
Lemma mk_flatcoo_shape sh i d s : mk_flatcoo sh i d = Ok s -> shape_of s = sh.
Proof. unfold mk_flatcoo. intros E. repeat step E. now injection E as <-. Qed.
Lemma mk_csr_shape sh cr co d s : mk_csr sh cr co d = Ok s -> shape_of s = sh.
Proof. unfold mk_csr. intros E. repeat step E. now injection E as <-. Qed.
Lemma mk_dm_shape sh rd rs ro d s : mk_dm sh rd rs ro d = Ok s -> shape_of s = sh.
Proof. unfold mk_dm. destruct rd; [discriminate|]. intros E. repeat step E. now injection E as <-. Qed.

Lemma coo_get_slice_shape h s d sh st off r h' : coo_get_slice h s d sh st off = Ok (r, h') -> shape_of r = sh.
Proof.
  unfold coo_get_slice. intros E. repeat step E. injection E as <- _. eapply mk_coo_shape. eassumption.
Qed.
Lemma flatcoo_get_slice_shape h s d sh st off r h' :
  flatcoo_get_slice h s d sh st off = Ok (r, h') -> shape_of r = sh.
Proof.
  unfold flatcoo_get_slice. intros E. repeat step E. injection E as <- _. eapply mk_flatcoo_shape. eassumption.
Qed.
Lemma csr_get_slice_shape h s d sh st off r h' : csr_get_slice h s d sh st off = Ok (r, h') -> shape_of r = sh.
Proof.
  unfold csr_get_slice. destruct (zlen sh =? 1); intros E; repeat step E.
  - eapply coo_get_slice_shape. eassumption.
  - injection E as <- _. eapply mk_csr_shape. eassumption.
Qed.

Theorem C76_any_shape : forall h s ix s' h',
  (forall b, s <> SBuffer b) -> length (strides_of s) = length (shape_of s) ->
  positive (shape_of s) -> ok_index ix (shape_of s) -> slice_shape ix (shape_of s) <> [] ->
  getitem h s ix = Ok (ISto s', h') -> shape_of s' = slice_shape ix (shape_of s).
Proof.
  intros h s ix s' h' Hnb Hls Hp Hok Hne E. pose proof Hok as [Hit _].
  set (nix := norm_items (index_items ix) (shape_of s)).
  assert (Hn : normal_index nix (shape_of s)) by now apply norm_items_normal.
  assert (Es : n_shape nix (shape_of s) = slice_shape ix (shape_of s)) by now apply norm_items_shape.
  assert (Eel : is_element_index nix (shape_of s) = false).
  { apply not_true_iff_false. intros X. apply element_n_shape in X; [|exact Hn]. congruence. }
  assert (Ex : normalize_index ix (shape_of s) = Ok nix) by now apply normalize_index_ok.
  destruct s as [b|t|sh ind d|sh fi d|sh cr co d|sh a1 a2 a3 a4|sh rd rsh rs ro d]; cbn [shape_of strides_of] in *.
  1: now destruct (Hnb b).
  1:{ cbn [getitem] in E. destruct (strided_getitem h t ix) as [it|] eqn:G; [|discriminate E].
      cbn [bind] in E. injection E as -> _. unfold strided_getitem in G. rewrite Ex in G. cbn [bind] in G.
      rewrite Eel in G. rewrite index_strided_ok in G by assumption. cbn [bind] in G. repeat step G.
      injection G as <-. cbn [shape_of]. rewrite <- Es. eapply mk_strided_shape. eassumption. }
  5:{ cbn [getitem] in E. rewrite Ex in E. cbn [bind] in E. rewrite Eel in E.
      rewrite normal_index_id in E by assumption. cbn [bind] in E. rewrite shape_strided_ok in E by assumption.
      cbn [bind] in E. repeat step E. destruct i; [discriminate|]. repeat step E. injection E as <- _.
      rewrite <- Es. eapply mk_dm_shape. eassumption. }
  4:{ exfalso. cbn [getitem shape_of] in E. rewrite Ex in E. cbn [bind] in E. rewrite Eel in E. repeat step E. discriminate. }
  all: cbn [getitem shape_of strides_of] in E; rewrite Ex in E; cbn [bind] in E; rewrite Eel in E;
    rewrite index_strided_ok in E by assumption; cbn [bind] in E; repeat step E; injection E as <- _; rewrite <- Es.
  - eapply coo_get_slice_shape. eassumption.
  - eapply flatcoo_get_slice_shape. eassumption.
  - eapply csr_get_slice_shape. eassumption.
Qed.
Print Assumptions C76_any_shape.

Theorem C76_slice : forall h s n sl s' h',
  (forall b, s <> SBuffer b) -> length (strides_of s) = length (shape_of s) ->
  positive (shape_of s) -> sp_step sl <> 0 ->
  len_of s = Ok n -> getitem h s (XItem (ISlice sl)) = Ok (ISto s', h') ->
  len_of s' = Ok (zlen (selected sl n)).
Proof.
  intros h s n sl s' h' Hnb Hl Hp Hst Hn E. apply len_shape in Hn as [sh Hn].
  eapply len_cons. rewrite (C76_any_shape h s (XItem (ISlice sl)) s' h'); try assumption.
  - rewrite Hn. reflexivity.
  - split; [constructor; [exact Hst|constructor]|right]. rewrite Hn. cbn. lia.
  - rewrite Hn. discriminate.
Qed.
Print Assumptions C76_slice.

(** Such a slice exists of every Strided, COO, FlatCOO and CSR array ... *)
Theorem C76_slice_exists : forall h s sl, valid h s -> plain s -> positive (shape_of s) -> shape_of s <> [] ->
  sp_step sl <> 0 -> exists s' h', getitem h s (XItem (ISlice sl)) = Ok (ISto s', h').
Proof.
  intros h s sl [f Hr] Hpl Hp Hne Hst.
  destruct (slice_plain s h f (XItem (ISlice sl)) Hr Hpl Hp) as (s1 & h1 & E1 & _); eauto.
  - split; [constructor; [exact Hst|constructor]|right]. destruct (shape_of s); [congruence|]. cbn. lia.
  - destruct (shape_of s); [congruence|]. discriminate.
Qed.
Print Assumptions C76_slice_exists.

(** ... and of every DM array a program builds. *)
Theorem C76_dm_slice_exists : forall h0 h s sl, built_dm h0 h s -> shape_of s <> [] -> sp_step sl <> 0 ->
  exists s' h', getitem h s (XItem (ISlice sl)) = Ok (ISto s', h').
Proof.
  intros h0 h s sl Hb Hne Hst.
  destruct (C29_dm_slices h0 h s (XItem (ISlice sl)) Hb) as (s1 & h1 & E1 & _); eauto.
  - split; [constructor; [exact Hst|constructor]|right]. destruct (shape_of s); [congruence|]. cbn. lia.
  - destruct (shape_of s); [congruence|]. discriminate.
Qed.
Print Assumptions C76_dm_slice_exists.

(** A Buffer window has the length of its range. *)
Theorem C76_window : forall h b n i j s h',
  valid h (SBuffer b) -> len_of (SBuffer b) = Ok n -> 0 <= i -> i < j -> j <= n ->
  getitem h (SBuffer b) (window i j) = Ok (ISto s, h') -> len_of s = Ok (j - i).
Proof.
  intros h b n i j s h' Hv [= <-] Hi Hij Hj E.
  destruct (C44_windows h b i j Hv Hi Hij Hj) as (w & E1 & _ & E2 & _). rewrite E in E1. injection E1 as -> _.
  cbn. now rewrite E2.
Qed.
Print Assumptions C76_window.

(** Conversion to another class keeps the length. *)
Theorem C76_conversion : forall c h s u t h',
  valid h s -> positive (shape_of s) -> shape_of s <> [] -> class_rank c (shape_of s) ->
  (c = CCSR -> some_element_stays h s (chosen (unspecified_of s) u)) ->
  as_storage c h s u = Ok (t, h') -> len_of t = len_of s.
Proof.
  intros c h s u t h' Hv Hp Hne Hc Hst E.
  destruct (C24_conversion c h s u Hv Hp Hne Hc Hst) as (t1 & h1 & E1 & _ & _ & _ & _ & E2 & _).
  rewrite E in E1. injection E1 as <- <-. unfold len_of. now rewrite E2.
Qed.
Print Assumptions C76_conversion.

(** Indices that differ by the length select the same item, and [s[-1]] is
    [s[len(s) - 1]]. *)
Theorem C76_period : forall h s n k,
  (forall b, s <> SBuffer b) -> positive (shape_of s) -> len_of s = Ok n ->
  getitem h s (XItem (IInt (k + n))) = getitem h s (XItem (IInt k))
  /\ getitem h s (XItem (IInt (-1))) = getitem h s (XItem (IInt (n - 1))).
Proof.
  intros h s n k Hb Hp Hn. apply len_shape in Hn as [sh Hn].
  assert (Hpos : 0 < n) by (rewrite Hn in Hp; now inversion Hp).
  assert (W : forall z, getitem h s (XItem (IInt (z mod n))) = getitem h s (XItem (IInt z))).
  { intros z.
    assert (K : forall y, ok_index (XItem (IInt y)) (shape_of s)
                /\ (length (index_items (XItem (IInt y))) <= length (shape_of s))%nat).
    { intros y. rewrite Hn. split; [split; [constructor; [exact I|constructor]|right]|]; cbn; lia. }
    destruct (C43_integers_wrap h s (XItem (IInt z)) (SrcSeq VNone) Hb Hp (proj1 (K _)) (proj2 (K _))) as [<- _].
    destruct (C43_integers_wrap h s (XItem (IInt (z mod n))) (SrcSeq VNone) Hb Hp (proj1 (K _)) (proj2 (K _))) as [<- _].
    rewrite Hn. unfold wrap. cbn [index_items wrap_items]. now rewrite Z.mod_mod by lia. }
  split.
  - rewrite <- (W (k + n)), <- (W k). replace (k + n) with (k + 1 * n) by lia. now rewrite Z.mod_add by lia.
  - assert (E : (-1) mod n = (n - 1) mod n).
    { rewrite C43_negative by lia. rewrite Z.mod_small by lia. lia. }
    rewrite <- (W (-1)), <- (W (n - 1)). now rewrite E.
Qed.
Print Assumptions C76_period.

(** An array without dimensions has no length. *)
Theorem C76_no_dimensions : forall s, shape_of s = [] <-> len_of s = Raise IndexError.
Proof.
  intros s. unfold len_of. split; [intros ->; reflexivity|].
  destruct (shape_of s); [reflexivity|discriminate].
Qed.
Print Assumptions C76_no_dimensions.

(** The length of a 3 x 2 array is 3 and that of its reversed second half [::-2] is 2. *)
Example C76_case : forall c, In c [CStrided; CCOO; CFlatCOO; CCSR; CDM] ->
  ('(s, h) <- fromobject c [] (SrcSeq (VSeq (map VSeq [[VInt 1; VNone]; [VInt 3; VInt 4]; [VNone; VInt 5]]))) fo_default ;;
   '(it, h1) <- getitem h s (XItem (ISlice (Sl None None (Some (-2))))) ;;
   n <- len_of s ;; m <- (match it with ISto t => len_of t | IVal _ => Raise OutOfModel end) ;; Ok (n, m)) = Ok (3, 2).
Proof. intros c [<-|[<-|[<-|[<-|[<-|[]]]]]]; vm_compute; reflexivity. Qed.

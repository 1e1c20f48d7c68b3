(** C60: the index lists of COO, FlatCOO and CSR arrays are in the usual format,
    and arrays assembled by the constructors from lists in that format have the
    elements the format describes. *)
From Coq Require Import Sorting.Sorted Permutation ZifyBool.
From Verif Require Import Py SliceTools Basics Storage Spec SliceFacts IndexFacts
  CompressFacts ReduceFacts SolverFacts SolveFacts Repr ReprFacts ViewFacts BuildFacts SparseFacts
  ConvFacts FromFacts PureFacts.

(** * The formats *)

(** Flat indices: strictly ascending, inside the array. *)
Definition flat_format (sh fi : list Z) : Prop :=
  StronglySorted Z.lt fi /\ Forall (fun x => 0 <= x < n_elements sh) fi.

(** One row of indices per axis; the [p]-th stored index is column [p]. *)
Definition stored_tuple (rows : list (list Z)) (p : nat) : list Z := map (fun r => nth p r 0) rows.
Definition coo_format (sh : list Z) (rows : list (list Z)) (n : nat) : Prop :=
  length rows = length sh /\ Forall (fun r => length r = n) rows
  /\ (forall p, (p < n)%nat -> in_box (stored_tuple rows p) sh)
  /\ (forall p q, (p < q)%nat -> (q < n)%nat -> row_major_lt (stored_tuple rows p) (stored_tuple rows q)).

(** Row [r] occupies positions crow[r], ..., crow[r+1]-1; columns ascend in each
    row. *)
Definition csr_format (nrows ncols : Z) (crow col : list Z) : Prop :=
  zlen crow = nrows + 1
  /\ nth 0 crow 0 = 0 /\ last crow 0 = zlen col
  /\ Sorted Z.le crow
  /\ Forall (fun c => 0 <= c < ncols) col
  /\ forall r p q, (r < Z.to_nat nrows)%nat -> nth r crow 0 <= Z.of_nat p -> (p < q)%nat ->
       Z.of_nat q < nth (S r) crow 0 -> nth p col 0 < nth q col 0.

(** * Lemmas *)
Lemma holds_same h b vs ws : holds h b vs -> holds h b ws -> vs = ws.
Proof.
  intros (l & Hl & _ & Hs & _ & Hv) (m & Hm & _ & Ht & _ & Hw). assert (m = l) by congruence. subst m.
  assert (length vs = length ws) by (unfold zlen in *; lia). rewrite <- Hv, <- Hw. now f_equal.
Qed.

Lemma map_VInt_inj l : forall m, map VInt l = map VInt m -> l = m.
Proof. induction l as [|x l IH]; intros [|y m] H; try discriminate; [reflexivity|]. injection H as -> H. f_equal. now apply IH. Qed.

Lemma sorted_nth {A} (R : A -> A -> Prop) (d : A) l :
  (forall p q, (p < q)%nat -> (q < length l)%nat -> R (nth p l d) (nth q l d)) -> StronglySorted R l.
Proof.
  induction l as [|x l IH]; intros H; constructor.
  - apply IH. intros p q Hp Hq. apply (H (S p) (S q)); cbn; lia.
  - apply Forall_forall. intros y Hy. destruct (In_nth _ _ d Hy) as (k & Hk & <-).
    apply (H 0%nat (S k)); cbn; lia.
Qed.

Lemma combine_fst {A B} (l : list A) : forall m : list B, length l = length m -> map fst (combine l m) = l.
Proof. induction l as [|x l IH]; intros [|y m] H; try discriminate; [reflexivity|]. cbn. f_equal. apply IH. now injection H. Qed.
Lemma combine_snd {A B} (l : list A) : forall m : list B, length l = length m -> map snd (combine l m) = m.
Proof. induction l as [|x l IH]; intros [|y m] H; try discriminate; [reflexivity|]. cbn. f_equal. apply IH. now injection H. Qed.

Lemma nth_error_combine {A B} (l : list A) : forall (m : list B) k x y,
  nth_error l k = Some x -> nth_error m k = Some y -> In (x, y) (combine l m).
Proof.
  induction l as [|a l IH]; intros [|b m] [|k] x y Hx Hy; try discriminate; cbn in *.
  - injection Hx as ->. injection Hy as ->. now left.
  - right. eapply IH; eassumption.
Qed.

(** Elements of an array with given entries. *)
Lemma entries_elements h s E : entries h s E ->
  forall i, in_box i (shape_of s) ->
    (forall x, In (i, x) E -> get_elem h s i = Ok x)
    /\ (~ In i (map fst E) -> get_elem h s i = Ok (unspecified_of s)).
Proof.
  intros HE i Hi. pose proof (repr_get h s _ i (repr_entries h s E HE) Hi) as G. split.
  - intros x Hx. rewrite G. f_equal. apply In_lookup; [|exact Hx].
    apply sorted_NoDup. apply (entries_ordered h s E HE).
  - intros Hx. rewrite G. f_equal. now apply lookup_absent.
Qed.

Lemma ordered_combine sh I (vs : list pyval) : length I = length vs ->
  Forall (fun i => in_box i sh) I -> StronglySorted row_major_lt I -> ordered sh (combine I vs).
Proof.
  intros Hl HI Hs. split.
  - apply Forall_forall. intros [i x] Hin. cbn [fst]. apply in_combine_l in Hin.
    rewrite Forall_forall in HI. now apply HI.
  - now rewrite combine_fst.
Qed.

Lemma product_n_elements sh : n_elements sh = product sh.
Proof. induction sh as [|n sh IH]; [reflexivity|]. unfold n_elements in *. cbn [fold_right product]. now rewrite IH. Qed.

Lemma nonneg_positive sh : nonneg sh -> 0 < product sh -> positive sh.
Proof.
  intros H. induction H as [|n sh Hn H IH]; cbn [product]; intros Hp; constructor.
  - destruct (Z.eq_dec n 0) as [->|]; lia.
  - apply IH. assert (0 <= product sh) by (clear - H; induction H; cbn [product]; [lia|now apply Z.mul_nonneg_nonneg]).
    destruct (Z.eq_dec (product sh) 0) as [E|]; [rewrite E in Hp; lia|lia].
Qed.

(** * FlatCOO *)
Lemma flat_indices sh fi : nonneg sh -> flat_format sh fi ->
  let I := map (fun x => unravel x sh) fi in
  map (fun i => zdot i (c_strides sh)) I = fi
  /\ Forall (fun i => in_box i sh) I /\ StronglySorted row_major_lt I.
Proof.
  intros Hn [Hs Hf]. cbv zeta. rewrite c_strides_make.
  assert (Hp : forall x, In x fi -> positive sh /\ 0 <= x < product sh).
  { rewrite Forall_forall in Hf. intros x Hx. specialize (Hf x Hx). rewrite product_n_elements in Hf.
    split; [|exact Hf]. apply nonneg_positive; [exact Hn|lia]. }
  split; [|split].
  - rewrite map_map. rewrite <- (map_id fi) at 2. apply map_ext_in. intros x Hx.
    destruct (Hp x Hx). now apply ravel_unravel.
  - apply Forall_map, Forall_forall. intros x Hx. apply unravel_in_box. exact (proj1 (Hp x Hx)).
  - clear Hf. induction Hs as [|x fi Hs IH Hx]; cbn [map]; constructor.
    + apply IH. intros y Hy. apply Hp. now right.
    + apply Forall_map, Forall_forall. intros y Hy. rewrite Forall_forall in Hx.
      destruct (Hp x (or_introl eq_refl)) as [P Px], (Hp y (or_intror Hy)) as [_ Py].
      rewrite (row_major_position_iff _ _ sh) by now apply unravel_in_box.
      rewrite !ravel_unravel by assumption. now apply Hx.
Qed.

Theorem C60_flatcoo : forall h sh f d fi vs,
  sh <> [] -> nonneg sh -> holds h f (map VInt fi) -> holds h d vs ->
  baddr f <> baddr d -> bunspec f = VNone ->
  let s := SFlatCOO sh f d in
  (valid h s <-> length fi = length vs /\ flat_format sh fi)
  /\ (length fi = length vs -> flat_format sh fi ->
      mk_flatcoo sh f d = Ok s
      /\ forall i, in_box i sh ->
         (forall p x, nth_error fi p = Some (zdot i (c_strides sh)) -> nth_error vs p = Some x ->
            get_elem h s i = Ok x)
         /\ (~ In (zdot i (c_strides sh)) fi -> get_elem h s i = Ok (bunspec d))).
Proof.
  intros h sh f d fi vs Hne Hn Hf Hd Ha Hu s.
  assert (HE : length fi = length vs -> flat_format sh fi ->
    entries h s (combine (map (fun x => unravel x sh) fi) vs)).
  { intros Hl Hfm. destruct (flat_indices sh fi Hn Hfm) as (I1 & I2 & I3). cbv zeta in *.
    cbn [entries s]. refine (conj Hn (conj Hne (conj _ (conj _ (conj _ (conj Ha Hu)))))).
    - apply ordered_combine; auto. now rewrite map_length.
    - rewrite combine_snd by now rewrite map_length. exact Hd.
    - rewrite <- (map_map fst (fun i => VInt (zdot i (c_strides sh)))).
      rewrite combine_fst by now rewrite map_length.
      rewrite <- (map_map (fun i => zdot i (c_strides sh)) VInt). rewrite I1. exact Hf. }
  split; [split|].
  - intros [g (E & HEE & _)]. destruct HEE as (_ & _ & [Ho1 Ho2] & Hd' & Hf' & _).
    pose proof (holds_same _ _ _ _ Hd Hd') as Ev. pose proof (holds_same _ _ _ _ Hf Hf') as Ef.
    rewrite <- (map_map (fun e => zdot (fst e) (c_strides sh)) VInt) in Ef. apply map_VInt_inj in Ef.
    subst vs fi. split; [now rewrite !map_length|]. rewrite c_strides_make in *. split.
    + clear - Ho1 Ho2. induction E as [|e E IH]; cbn [map] in *; constructor.
      * apply IH; [now inversion Ho1|now inversion Ho2].
      * inversion Ho1 as [|? ? B1 B2]; subst. inversion Ho2 as [|? ? S1 S2]; subst.
        rewrite Forall_map in *. rewrite Forall_forall in *. intros e' He'.
        apply row_major_position; auto.
    + apply Forall_map. eapply Forall_impl; [|exact Ho1]. intros e He.
      rewrite product_n_elements. now apply ravel_range.
  - intros [Hl Hfm]. eexists. exact (repr_entries h s _ (HE Hl Hfm)).
  - intros Hl Hfm. split.
    { unfold mk_flatcoo. destruct Hf as (? & _ & _ & S1 & _), Hd as (? & _ & _ & S2 & _).
      rewrite S1, S2. rewrite zlen_map. replace (zlen fi =? zlen vs) with true by (unfold zlen; lia). reflexivity. }
    destruct (flat_indices sh fi Hn Hfm) as (I1 & I2 & I3). cbv zeta in *.
    intros i Hi. destruct (entries_elements h s _ (HE Hl Hfm) i Hi) as [G1 G2].
    assert (Hu0 : unravel (zdot i (c_strides sh)) sh = i) by (rewrite c_strides_make; now apply unravel_ravel0).
    split.
    + intros p x Hp Hx. apply G1. eapply nth_error_combine; [|exact Hx].
      rewrite nth_error_map, Hp. cbn [option_map]. now rewrite Hu0.
    + intros Hni. apply G2. intros Hin. apply Hni. rewrite combine_fst in Hin by now rewrite map_length.
      rewrite <- I1. exact (in_map (fun i => zdot i (c_strides sh)) _ i Hin).
Qed.
Print Assumptions C60_flatcoo.

(** * COO *)
Lemma stored_tuple_nth rows p k : nth k (stored_tuple rows p) 0 = nth p (nth k rows []) 0.
Proof.
  unfold stored_tuple. destruct (Nat.lt_ge_cases k (length rows)) as [Hk|Hk].
  - rewrite (nth_indep _ 0 (nth p [] 0)) by now rewrite map_length.
    now rewrite (map_nth (fun r => nth p r 0)).
  - rewrite !nth_overflow; [|rewrite nth_overflow by exact Hk; cbn; lia|now rewrite map_length].
    reflexivity.
Qed.

Lemma tuples_columns rows n (vs : list pyval) : Forall (fun r => length r = n) rows -> length vs = n ->
  map (fun k => column k (combine (map (stored_tuple rows) (seq 0 n)) vs)) (seq 0 (length rows)) = rows.
Proof.
  intros Hr Hv. apply nth_ext with (d := []) (d' := []); [now rewrite map_length, seq_length|].
  intros k Hk. rewrite map_length, seq_length in Hk.
  rewrite (nth_indep _ [] (column (length rows) (combine (map (stored_tuple rows) (seq 0 n)) vs))) by now rewrite map_length, seq_length.
  rewrite (map_nth (fun k => column k (combine (map (stored_tuple rows) (seq 0 n)) vs))).
  rewrite (nth_indep _ _ 0%nat) by now rewrite seq_length. rewrite seq_nth by exact Hk. cbn [Nat.add].
  unfold column. rewrite <- (map_map fst (fun i => nth k i 0)).
  rewrite combine_fst by now rewrite map_length, seq_length. rewrite map_map.
  rewrite (map_ext _ (fun p => nth p (nth k rows []) 0)) by (intros p; apply stored_tuple_nth).
  assert (Hn : length (nth k rows []) = n).
  { rewrite Forall_forall in Hr. apply Hr. now apply nth_In. }
  rewrite <- Hn. clear. induction (nth k rows []) as [|x l IH]; [reflexivity|].
  cbn [length seq map nth]. f_equal. rewrite <- seq_shift, map_map. exact IH.
Qed.

Lemma concat_same_length {A} (l : list (list A)) : forall m n,
  Forall (fun r => length r = n) l -> Forall (fun r => length r = n) m -> length l = length m ->
  concat l = concat m -> l = m.
Proof.
  induction l as [|x l IH]; intros [|y m] n Hl Hm Hlen H; try discriminate; [reflexivity|].
  inversion Hl as [|? ? L1 L2]; subst. inversion Hm as [|? ? M1 M2]; subst. cbn [concat] in H.
  assert (E : x = y /\ concat l = concat m).
  { clear - H M1. revert y M1 H. induction x as [|a x IH]; intros [|b y] M1 H; try discriminate.
    - now split.
    - cbn in H. injection H as -> H. destruct (IH y) as [-> E]; [now injection M1|exact H|]. now split. }
  destruct E as [-> E]. f_equal. eapply IH; try eassumption. now injection Hlen.
Qed.

Theorem C60_coo : forall h sh ind d rows vs,
  sh <> [] -> nonneg sh -> length rows = length sh -> Forall (fun r => length r = length vs) rows ->
  sshape ind = [zlen sh; zlen vs] -> sstrides ind = [zlen vs; 1] ->
  holds h (sdata ind) (map VInt (concat rows)) -> holds h d vs ->
  baddr (sdata ind) <> baddr d -> bunspec (sdata ind) = VNone ->
  let s := SCOO sh ind d in
  (valid h s <-> coo_format sh rows (length vs))
  /\ (coo_format sh rows (length vs) ->
      mk_coo sh ind d = Ok s
      /\ forall i, in_box i sh ->
         (forall p x, stored_tuple rows p = i -> nth_error vs p = Some x -> get_elem h s i = Ok x)
         /\ ((forall p, (p < length vs)%nat -> stored_tuple rows p <> i) -> get_elem h s i = Ok (bunspec d))).
Proof.
  intros h sh ind d rows vs Hne Hn Hrl Hrn Hish Hist Hf Hd Ha Hu s.
  set (I := map (stored_tuple rows) (seq 0 (length vs))).
  assert (LI : length I = length vs) by (unfold I; now rewrite map_length, seq_length).
  assert (NI : forall p, (p < length vs)%nat -> nth p I [] = stored_tuple rows p).
  { intros p Hp. unfold I. rewrite (nth_indep _ [] (stored_tuple rows 0)) by now rewrite map_length, seq_length.
    rewrite map_nth. now rewrite seq_nth. }
  assert (HE : coo_format sh rows (length vs) -> entries h s (combine I vs)).
  { intros (_ & _ & F3 & F4). cbn [entries s].
    assert (LC : zlen (combine I vs) = zlen vs) by (unfold zlen; rewrite combine_length, LI; lia).
    rewrite LC. refine (conj Hn (conj Hne (conj _ (conj _ (conj Hish (conj Hist (conj _ (conj Ha Hu)))))))).
    - apply ordered_combine; [exact LI| |].
      + unfold I. apply Forall_map, Forall_forall. intros p Hp. apply in_seq in Hp. apply F3. lia.
      + apply (sorted_nth _ []). intros p q Hp Hq. rewrite LI in Hq. rewrite !NI by lia. now apply F4.
    - rewrite combine_snd by exact LI. exact Hd.
    - rewrite <- Hrl. unfold I. rewrite tuples_columns by auto. exact Hf. }
  split; [split|].
  - intros [g (E & HEE & _)]. destruct HEE as (_ & _ & [Ho1 Ho2] & Hd' & _ & _ & Hf' & _).
    pose proof (holds_same _ _ _ _ Hd Hd') as Ev. pose proof (holds_same _ _ _ _ Hf Hf') as Ef.
    apply map_VInt_inj in Ef. apply (concat_same_length _ _ (length vs)) in Ef; auto.
    + assert (LE : length vs = length E) by (rewrite Ev; apply map_length).
      assert (T : forall p, (p < length vs)%nat -> stored_tuple rows p = nth p (map fst E) []).
      { intros p Hp. rewrite LE in Hp.
        assert (Hb : in_box (nth p (map fst E) []) sh).
        { rewrite (nth_indep _ [] (fst ([], VNone))) by now rewrite map_length. rewrite (map_nth fst).
          rewrite Forall_forall in Ho1. apply Ho1. now apply nth_In. }
        apply nth_ext with (d := 0) (d' := 0).
        { unfold stored_tuple. rewrite map_length, Hrl. symmetry. exact (in_box_len _ _ Hb). }
        intros k Hk. unfold stored_tuple in Hk. rewrite map_length in Hk. rewrite stored_tuple_nth, Ef.
        rewrite (nth_indep _ [] (column (length sh) E)) by (rewrite map_length, seq_length; lia).
        rewrite (map_nth (fun k => column k E)). rewrite (nth_indep _ _ 0%nat) by (rewrite seq_length; lia).
        rewrite seq_nth by lia. cbn [Nat.add]. unfold column.
        rewrite (nth_indep (map fst E) [] (fst ([], VNone))) by now rewrite map_length. rewrite (map_nth fst).
        rewrite (nth_indep _ 0 (nth k (fst (@nil Z, VNone)) 0)) by now rewrite map_length.
        now rewrite (map_nth (fun e => nth k (fst e) 0)). }
      split; [exact Hrl|]. split; [exact Hrn|]. split.
      * intros p Hp. rewrite T by exact Hp. rewrite LE in Hp.
        rewrite (nth_indep _ [] (fst ([], VNone))) by now rewrite map_length. rewrite (map_nth fst).
        rewrite Forall_forall in Ho1. apply Ho1. now apply nth_In.
      * intros p q Hpq Hq. rewrite !T by lia. apply StronglySorted_nth; [exact Ho2|exact Hpq|].
        rewrite map_length. lia.
    + apply Forall_map, Forall_forall. intros k _. unfold column. rewrite map_length, Ev. now rewrite map_length.
    + now rewrite map_length, seq_length.
  - intros Hfm. eexists. exact (repr_entries h s _ (HE Hfm)).
  - intros Hfm. split.
    { unfold mk_coo. rewrite Hish. change (pyget [zlen sh; zlen vs] 1) with (@Ok Z (zlen vs)). cbn [bind].
      destruct Hd as (? & _ & _ & S2 & _). rewrite S2, Z.eqb_refl. reflexivity. }
    intros i Hi. destruct (entries_elements h s _ (HE Hfm) i Hi) as [G1 G2]. split.
    + intros p x Hp Hx. apply G1. eapply nth_error_combine; [|exact Hx].
      assert (Hlt : (p < length vs)%nat) by (apply nth_error_Some; congruence).
      rewrite (nth_error_nth' I []) by lia. now rewrite NI, Hp.
    + intros Hni. apply G2. rewrite combine_fst by exact LI. unfold I. rewrite in_map_iff.
      intros (p & Ep & Hp). apply in_seq in Hp. apply (Hni p); [lia|exact Ep].
Qed.
Print Assumptions C60_coo.

(** * CSR *)
Lemma uncompress_nth c : Sorted Z.le c -> forall i p r,
  nth_error (uncompress_loop i c) p = Some r <->
  i <= r < i + zlen c - 1
  /\ nth (Z.to_nat (r - i)) c 0 - hd 0 c <= Z.of_nat p < nth (S (Z.to_nat (r - i))) c 0 - hd 0 c.
Proof.
  induction c as [|a c IH]; intros Hs i p r.
  - cbn. split; [now destruct p|lia].
  - destruct c as [|b c].
    + cbn. split; [now destruct p|]. unfold zlen. cbn [length]. lia.
    + inversion Hs as [|? ? Hs' Hh]; subst. inversion Hh as [|? ? Hab]; subst.
      change (uncompress_loop i (a :: b :: c)) with (repeat i (Z.to_nat (b - a)) ++ uncompress_loop (i + 1) (b :: c)).
      cbn [hd]. set (n := Z.to_nat (b - a)).
      assert (Hn : Z.of_nat n = b - a) by (unfold n; lia).
      destruct (Nat.lt_ge_cases p n) as [Hp|Hp].
      * rewrite nth_error_app1 by now rewrite repeat_length. rewrite (nth_error_repeat i Hp). split.
        -- intros E. injection E as <-. unfold zlen. cbn [length]. rewrite Z.sub_diag. cbn [Z.to_nat nth]. lia.
        -- intros (Hr & Hp1 & Hp2). destruct (Z.eq_dec r i) as [->|Hne]; [reflexivity|]. exfalso.
           replace (Z.to_nat (r - i)) with (S (Z.to_nat (r - i - 1))) in Hp1 by lia.
           change (nth (S (Z.to_nat (r - i - 1))) (a :: b :: c) 0) with (nth (Z.to_nat (r - i - 1)) (b :: c) 0) in Hp1.
           assert (Hb : Forall (fun x => b <= x) (b :: c)) by (constructor; [lia|now apply sorted_head_le]).
           rewrite Forall_forall in Hb.
           assert (b <= nth (Z.to_nat (r - i - 1)) (b :: c) 0).
           { apply Hb, nth_In. unfold zlen in Hr. cbn [length] in *. lia. }
           lia.
      * rewrite nth_error_app2 by now rewrite repeat_length. rewrite repeat_length. rewrite (IH Hs').
        cbn [hd]. split.
        -- intros (Hr & Hp1 & Hp2). unfold zlen in *. cbn [length] in *. split; [lia|].
           replace (Z.to_nat (r - i)) with (S (Z.to_nat (r - (i + 1)))) by lia.
           change (nth (S (S (Z.to_nat (r - (i + 1))))) (a :: b :: c) 0) with (nth (S (Z.to_nat (r - (i + 1)))) (b :: c) 0).
           change (nth (S (Z.to_nat (r - (i + 1)))) (a :: b :: c) 0) with (nth (Z.to_nat (r - (i + 1))) (b :: c) 0).
           lia.
        -- intros (Hr & Hp1 & Hp2). destruct (Z.eq_dec r i) as [->|Hne].
           { rewrite Z.sub_diag in Hp2. cbn [Z.to_nat nth] in Hp2. lia. }
           unfold zlen in *. cbn [length] in *. split; [lia|].
           replace (Z.to_nat (r - i)) with (S (Z.to_nat (r - (i + 1)))) in Hp1, Hp2 by lia.
           change (nth (S (S (Z.to_nat (r - (i + 1))))) (a :: b :: c) 0) with (nth (S (Z.to_nat (r - (i + 1)))) (b :: c) 0) in Hp2.
           change (nth (S (Z.to_nat (r - (i + 1)))) (a :: b :: c) 0) with (nth (Z.to_nat (r - (i + 1))) (b :: c) 0) in Hp1.
           lia.
Qed.

Lemma filter_length_le {A} (f : A -> bool) l : (length (filter f l) <= length l)%nat.
Proof. induction l as [|x l IH]; cbn; [lia|]. destruct (f x); cbn; lia. Qed.

Lemma last_nth (l : list Z) d : last l d = nth (length l - 1) l d.
Proof.
  induction l as [|x l IH]; [reflexivity|]. destruct l as [|y l]; [reflexivity|].
  change (last (x :: y :: l) d) with (last (y :: l) d). rewrite IH. cbn [length].
  replace (S (S (length l)) - 1)%nat with (S (S (length l) - 1)) by lia. reflexivity.
Qed.

Lemma uncompress_total c : Sorted Z.le c -> forall i, c <> [] ->
  zlen (uncompress_loop i c) = last c 0 - hd 0 c.
Proof.
  induction c as [|a c IH]; intros Hs i Hne; [congruence|]. destruct c as [|b c]; [cbn; unfold zlen; cbn; lia|].
  inversion Hs as [|? ? Hs' Hh]; subst. inversion Hh; subst.
  change (uncompress_loop i (a :: b :: c)) with (repeat i (Z.to_nat (b - a)) ++ uncompress_loop (i + 1) (b :: c)).
  cbn [hd]. unfold zlen. rewrite app_length, repeat_length. specialize (IH Hs' (i + 1) ltac:(discriminate)).
  unfold zlen in IH. change (last (a :: b :: c) 0) with (last (b :: c) 0). cbn [hd] in IH. lia.
Qed.

Definition row_col (rc : Z * Z) : list Z := [fst rc; snd rc].

Lemma csr_indices nrows ncols crow col : 0 <= nrows -> csr_format nrows ncols crow col ->
  let rows := uncompress_indices crow in
  let I := map row_col (combine rows col) in
  length rows = length col
  /\ (forall p r, nth_error rows p = Some r <->
        0 <= r < nrows /\ znth r crow <= Z.of_nat p < znth (r + 1) crow)
  /\ Forall (fun i => in_box i [nrows; ncols]) I /\ StronglySorted row_major_lt I.
Proof.
  intros Hnr (F1 & F2 & F3 & F4 & F5 & F6) rows I.
  assert (Hne : crow <> []) by (intros ->; unfold zlen in F1; cbn in F1; lia).
  assert (Hhd : hd 0 crow = 0) by (destruct crow; [congruence|exact F2]).
  assert (HN : forall p r, nth_error rows p = Some r <->
        0 <= r < nrows /\ znth r crow <= Z.of_nat p < znth (r + 1) crow).
  { intros p r. unfold rows, uncompress_indices. rewrite (uncompress_nth crow F4). rewrite Hhd, F1.
    rewrite !Z.sub_0_r. unfold znth.
    assert (G : 0 <= r -> Z.to_nat (r + 1) = S (Z.to_nat r)) by lia.
    split; intros (H1 & H2); (split; [lia|]); assert (Hr : 0 <= r) by lia; specialize (G Hr);
      rewrite G in *; exact H2. }
  assert (HL : length rows = length col).
  { pose proof (uncompress_total crow F4 0 Hne) as T. rewrite Hhd, F3 in T. unfold rows, uncompress_indices.
    unfold zlen in T. lia. }
  split; [exact HL|]. split; [exact HN|].
  assert (LI : length I = length col) by (unfold I; rewrite map_length, combine_length; lia).
  assert (NI : forall p, (p < length col)%nat -> nth p I [] = [nth p rows 0; nth p col 0]).
  { intros p Hp. unfold I. rewrite (nth_indep _ [] (row_col (0, 0))) by (rewrite map_length, combine_length; lia).
    rewrite map_nth. now rewrite combine_nth. }
  assert (NR : forall p, (p < length col)%nat -> nth_error rows p = Some (nth p rows 0)).
  { intros p Hp. apply nth_error_nth'. lia. }
  split.
  - apply Forall_forall. intros i Hi. destruct (In_nth _ _ [] Hi) as (p & Hp & <-). rewrite LI in Hp. rewrite NI by exact Hp.
    destruct (proj1 (HN p _) (NR p Hp)) as [Hr _]. rewrite Forall_forall in F5.
    pose proof (F5 _ (nth_In col 0 Hp)). repeat constructor; lia.
  - apply (sorted_nth _ []). intros p q Hpq Hq. rewrite LI in Hq. rewrite !NI by lia.
    destruct (proj1 (HN p _) (NR p ltac:(lia))) as [Hr1 Hp1].
    destruct (proj1 (HN q _) (NR q ltac:(lia))) as [Hr2 Hp2].
    set (r1 := nth p rows 0) in *. set (r2 := nth q rows 0) in *.
    destruct (Z.lt_trichotomy r1 r2) as [H|[H|H]].
    + now constructor.
    + rewrite <- H in *. apply rml_tail. constructor; [|reflexivity].
      apply (F6 (Z.to_nat r1)); try (unfold znth in *; lia).
      unfold znth in Hp2. replace (Z.to_nat (r1 + 1)) with (S (Z.to_nat r1)) in Hp2 by lia. lia.
    + exfalso. assert (znth (r2 + 1) crow <= znth r1 crow); [|lia].
      unfold znth. destruct (Z.eq_dec (r2 + 1) r1) as [->|]; [lia|].
      apply (StronglySorted_nth Z.le crow 0); [|lia|unfold zlen in F1; lia].
      apply Sorted_StronglySorted; [intros x y z; lia|exact F4].
Qed.

Theorem C60_csr : forall h nrows ncols bcrow bcol d crow col vs,
  0 <= nrows -> 0 <= ncols ->
  holds h bcrow (map VInt crow) -> holds h bcol (map VInt col) -> holds h d vs ->
  baddr bcrow <> baddr d -> baddr bcol <> baddr d -> bunspec bcrow = VNone -> bunspec bcol = VNone ->
  let s := SCSR [nrows; ncols] bcrow bcol d in
  (valid h s <-> length col = length vs /\ csr_format nrows ncols crow col)
  /\ (length col = length vs -> csr_format nrows ncols crow col ->
      mk_csr [nrows; ncols] bcrow bcol d = Ok s
      /\ forall r c, in_box [r; c] [nrows; ncols] ->
         (forall p x, nth (Z.to_nat r) crow 0 <= Z.of_nat p < nth (Z.to_nat r + 1) crow 0 ->
            nth_error col p = Some c -> nth_error vs p = Some x -> get_elem h s [r; c] = Ok x)
         /\ ((forall p, nth (Z.to_nat r) crow 0 <= Z.of_nat p < nth (Z.to_nat r + 1) crow 0 ->
               nth_error col p <> Some c) -> get_elem h s [r; c] = Ok (bunspec d))).
Proof.
  intros h nrows ncols bcrow bcol d crow col vs Hnr Hnc Hcr Hco Hd Ha1 Ha2 Hu1 Hu2 s.
  set (rows := uncompress_indices crow). set (I := map row_col (combine rows col)).
  assert (LI : length rows = length col -> length I = length col)
    by (unfold I; rewrite map_length, combine_length; lia).
  assert (HE : length col = length vs -> csr_format nrows ncols crow col -> entries h s (combine I vs)).
  { intros Hl Hfm. destruct (csr_indices nrows ncols crow col Hnr Hfm) as (I1 & _ & I2 & I3). cbv zeta in *.
    fold rows in I1, I2, I3. fold I in I2, I3. specialize (LI I1).
    destruct Hfm as (F1 & F2 & F3 & F4 & F5 & F6).
    assert (C0 : column 0 (combine I vs) = rows).
    { unfold column. rewrite <- (map_map fst (fun i => nth 0 i 0)). rewrite combine_fst by lia.
      unfold I. rewrite map_map. change (fun x => nth 0 (row_col x) 0) with (@fst Z Z). now apply combine_fst. }
    assert (C1 : column 1 (combine I vs) = col).
    { unfold column. rewrite <- (map_map fst (fun i => nth 1 i 0)). rewrite combine_fst by lia.
      unfold I. rewrite map_map. change (fun x => nth 1 (row_col x) 0) with (@snd Z Z). now apply combine_snd. }
    cbn [entries s]. rewrite C0, C1.
    refine (conj _ (conj eq_refl (conj _ (conj _ (conj _ (conj Hco (conj Ha1 (conj Ha2 (conj Hu1 Hu2))))))))).
    - repeat constructor; lia.
    - apply ordered_combine; [lia|exact I2|exact I3].
    - rewrite combine_snd by lia. exact Hd.
    - cbn [nth]. replace (map _ (zseq (nrows + 1))) with (map VInt crow); [exact Hcr|].
      rewrite <- (map_map (fun r => zlen (filter (fun x => x <? r) rows)) VInt). f_equal.
      apply nth_ext with (d := 0) (d' := 0); [rewrite map_length, zseq_length_nat; unfold zlen in F1; lia|].
      intros k Hk. rewrite nth_zseq_map by (unfold zlen in F1; lia). rewrite <- count_lt_length.
      unfold rows, uncompress_indices. rewrite <- (Z.add_0_l (Z.of_nat k)). rewrite (uncompress_count crow F4) by exact Hk.
      destruct crow; [cbn in Hk; lia|]. cbn [hd]. cbn [nth] in F2. lia. }
  split; [split|].
  - intros [g (E & HEE & _)]. destruct HEE as (_ & _ & [Ho1 Ho2] & Hd' & Hcr' & Hco' & _).
    pose proof (holds_same _ _ _ _ Hd Hd') as Ev.
    pose proof (holds_same _ _ _ _ Hcr Hcr') as Er. pose proof (holds_same _ _ _ _ Hco Hco') as Ec.
    apply map_VInt_inj in Ec. cbn [nth] in Er.
    rewrite <- (map_map (fun r => zlen (filter (fun x => x <? r) (column 0 E))) VInt) in Er. apply map_VInt_inj in Er.
    assert (Lc : length col = length E) by (rewrite Ec; apply map_length).
    assert (Bx : forall p, (p < length E)%nat -> nth p (map fst E) [] = [nth p (column 0 E) 0; nth p col 0]
                 /\ 0 <= nth p (column 0 E) 0 < nrows /\ 0 <= nth p col 0 < ncols).
    { intros p Hp. rewrite (nth_indep _ [] (fst ([], VNone))) by now rewrite map_length. rewrite (map_nth fst).
      rewrite Ec. unfold column.
      rewrite (nth_indep (map (fun e => nth 0 (fst e) 0) E) 0 (nth 0 (fst (@nil Z, VNone)) 0)) by now rewrite map_length.
      rewrite (map_nth (fun e => nth 0 (fst e) 0)).
      rewrite (nth_indep (map (fun e => nth 1 (fst e) 0) E) 0 (nth 1 (fst (@nil Z, VNone)) 0)) by now rewrite map_length.
      rewrite (map_nth (fun e => nth 1 (fst e) 0)).
      rewrite Forall_forall in Ho1. specialize (Ho1 _ (nth_In E ([], VNone) Hp)).
      inversion Ho1 as [|x ? i' ? B1 B2 E1]. inversion B2 as [|y0 ? i'' ? B3 B4]. inversion B4. subst.
      cbn [nth]. auto. }
    assert (S0 : Sorted Z.le (column 0 E)).
    { apply StronglySorted_Sorted, (sorted_nth _ 0). unfold column at 1. rewrite map_length. intros p q Hpq Hq.
      destruct (Bx p ltac:(lia)) as [Bp _], (Bx q Hq) as [Bq _].
      pose proof (StronglySorted_nth row_major_lt (map fst E) [] Ho2 p q Hpq ltac:(now rewrite map_length)) as R.
      rewrite Bp, Bq in R. inversion R; subst; lia. }
    assert (R0 : Forall (fun x => 0 <= x < nrows) (column 0 E)).
    { apply Forall_forall. intros x Hx. destruct (In_nth _ _ 0 Hx) as (p & Hp & <-). unfold column in Hp.
      rewrite map_length in Hp. now apply (Bx p Hp). }
    assert (CC : compress_indices (column 0 E) nrows = Ok crow).
    { rewrite compress_indices_spec by assumption. f_equal. rewrite Er. apply map_ext. intros r. now rewrite count_lt_length. }
    assert (UU : uncompress_indices crow = column 0 E) by (apply (uncompress_compress (column 0 E) nrows crow); assumption).
    assert (Zc : zlen crow = nrows + 1) by (rewrite Er, zlen_map, zseq_length; lia).
    assert (Nc : forall r, 0 <= r <= nrows -> znth r crow = count_lt r (column 0 E)).
    { intros r Hr. unfold znth. rewrite Er. rewrite nth_zseq_map by lia. rewrite count_lt_length. now rewrite Z2Nat.id by lia. }
    assert (Sc : Sorted Z.le crow).
    { apply StronglySorted_Sorted, (sorted_nth _ 0). intros p q Hpq Hq. unfold zlen in Zc.
      pose proof (Nc (Z.of_nat p) ltac:(lia)) as N1. pose proof (Nc (Z.of_nat q) ltac:(lia)) as N2.
      unfold znth in N1, N2. rewrite !Nat2Z.id in *. rewrite N1, N2. clear - Hpq.
      induction (column 0 E) as [|x l IH]; cbn [count_lt]; [lia|].
      destruct (Z.ltb_spec x (Z.of_nat p)), (Z.ltb_spec x (Z.of_nat q)); lia. }
    split; [rewrite Lc, Ev; symmetry; apply map_length|].
    split; [exact Zc|]. split; [|split; [|split; [exact Sc|split]]].
    + pose proof (Nc 0 ltac:(lia)) as N. unfold znth in N. cbn [Z.to_nat] in N. rewrite N. apply count_lt_none.
      eapply Forall_impl; [|exact R0]. cbn. lia.
    + rewrite last_nth. pose proof (Nc nrows ltac:(lia)) as N. unfold znth in N.
      replace (length crow - 1)%nat with (Z.to_nat nrows) by (unfold zlen in Zc; lia). rewrite N.
      rewrite count_lt_all by (eapply Forall_impl; [|exact R0]; cbn; lia). unfold column, zlen. rewrite map_length. lia.
    + apply Forall_forall. intros c Hc. destruct (In_nth _ _ 0 Hc) as (p & Hp & <-). apply (Bx p). lia.
    + intros r p q Hr Hp Hpq Hq.
      assert (Hlast : nth (S r) crow 0 <= zlen col).
      { pose proof (Nc (Z.of_nat (S r)) ltac:(lia)) as N. unfold znth in N. rewrite Nat2Z.id in N. rewrite N.
        rewrite count_lt_length. unfold zlen. rewrite Lc. pose proof (filter_length_le (fun x => x <? Z.of_nat (S r)) (column 0 E)) as FL.
        unfold column in FL at 2. rewrite map_length in FL. lia. }
      assert (Hrow : forall k, nth r crow 0 <= Z.of_nat k < nth (S r) crow 0 -> nth k (column 0 E) 0 = Z.of_nat r).
      { intros k Hk. pose proof (proj2 (uncompress_nth crow Sc 0 k (Z.of_nat r))) as U.
        fold (uncompress_indices crow) in U. rewrite UU in U. apply nth_error_nth with (d := 0) in U; [exact U|].
        assert (Hhd : hd 0 crow = 0).
        { pose proof (Nc 0 ltac:(lia)) as N. unfold znth in N. cbn [Z.to_nat] in N.
          destruct crow; [reflexivity|]. cbn [nth hd] in *. rewrite N. apply count_lt_none.
          eapply Forall_impl; [|exact R0]. cbn. lia. }
        rewrite Hhd, Zc, !Z.sub_0_r, !Nat2Z.id. lia. }
      unfold zlen in Hlast. rewrite Lc in Hlast.
      destruct (Bx p ltac:(lia)) as [Bp _], (Bx q ltac:(lia)) as [Bq _].
      pose proof (StronglySorted_nth row_major_lt (map fst E) [] Ho2 p q Hpq ltac:(rewrite map_length; lia)) as R.
      rewrite Bp, Bq in R. rewrite (Hrow p) in R by lia. rewrite (Hrow q) in R by lia.
      inversion R as [|? ? ? R']; subst; [lia|]. inversion R' as [? ? ? ? R''|? ? ? R'']; subst; [exact R''|inversion R''].
  - intros [Hl Hfm]. eexists. exact (repr_entries h s _ (HE Hl Hfm)).
  - intros Hl Hfm. split.
    { unfold mk_csr. cbn [zlen length]. change (zlen [nrows; ncols] =? 2) with true.
      change (pyget [nrows; ncols] 0) with (@Ok Z nrows). cbn [assert_ bind].
      destruct Hcr as (? & _ & _ & S1 & _), Hco as (? & _ & _ & S2 & _), Hd as (? & _ & _ & S3 & _).
      rewrite S1, S2, S3. rewrite !zlen_map. destruct Hfm as (F1 & _). rewrite F1, Z.eqb_refl.
      replace (zlen col =? zlen vs) with true by (unfold zlen; lia). reflexivity. }
    destruct (csr_indices nrows ncols crow col Hnr Hfm) as (I1 & IN & I2 & I3). cbv zeta in *.
    fold rows in I1, I2, I3, IN. fold I in I2, I3. specialize (LI I1).
    intros r c Hi. destruct (entries_elements h s _ (HE Hl Hfm) [r; c] Hi) as [G1 G2].
    assert (Hr : 0 <= r < nrows) by now inversion Hi.
    assert (Hrp : Z.to_nat (r + 1) = (Z.to_nat r + 1)%nat) by lia.
    split.
    + intros p x Hp Hcp Hx. apply G1. eapply nth_error_combine; [|exact Hx]. unfold I. rewrite nth_error_map.
      assert (Hrows : nth_error rows p = Some r).
      { apply IN. split; [exact Hr|]. unfold znth. rewrite Hrp. exact Hp. }
      assert (Hc : nth_error (combine rows col) p = Some (r, c)).
      { clear - Hrows Hcp. revert col p Hrows Hcp. generalize rows. induction rows0 as [|a l IH]; intros [|b m] [|p] H1 H2; try discriminate; cbn in *.
        - congruence.
        - now apply IH. }
      now rewrite Hc.
    + intros Hni. apply G2. rewrite combine_fst by lia. unfold I. rewrite in_map_iff. intros ((r' & c') & Ep & Hin).
      injection Ep as -> ->. destruct (In_nth _ _ (0, 0) Hin) as (p & Hp & Hnp).
      rewrite combine_nth in Hnp by exact I1. injection Hnp as N1 N2. rewrite combine_length in Hp.
      apply (Hni p).
      * assert (Hrows : nth_error rows p = Some r) by (rewrite (nth_error_nth' rows 0) by lia; now rewrite N1).
        apply IN in Hrows. unfold znth in Hrows. rewrite Hrp in Hrows. apply Hrows.
      * rewrite (nth_error_nth' col 0) by lia. now rewrite N2.
Qed.
Print Assumptions C60_csr.

(** * Strided

    Any strides are allowed, also ones that address a position twice. *)
Theorem C60_strided : forall h sh st b vs,
  nonneg sh -> length st = length sh -> holds h b vs ->
  (forall i, in_box i sh -> 0 <= zdot i st < zlen vs) ->
  let s := SStrided (Str sh st b) in
  mk_strided sh st b = Ok (Str sh st b)
  /\ (forall i, in_box i sh -> get_elem h s i = Ok (nth (Z.to_nat (zdot i st)) vs VNone))
  /\ ((forall i j, in_box i sh -> in_box j sh -> zdot i st = zdot j st -> i = j) -> valid h s).
Proof.
  intros h sh st b vs Hn Hl Hb Hin s. pose proof Hb as (l & Hcell & Ho & Hs & He & Hv). split; [|split].
  - unfold mk_strided. replace (zlen sh =? zlen st) with true by (unfold zlen; lia). reflexivity.
  - intros i Hi. unfold get_elem, s. cbn [getitem]. unfold strided_getitem. cbn [sshape sstrides sdata].
    rewrite normalize_ints by exact Hi. cbn [bind]. rewrite is_element_ints by now apply in_box_len.
    rewrite int_items_ints. rewrite get_position_ok; [|now apply in_box_len|exact Hl]. cbn [bind].
    rewrite (buf_get_ok h b vs) by (now apply Hin || exact Hb). reflexivity.
  - intros Hinj. exists (fun i => nth (Z.to_nat (spos (Str sh st b) i)) l VNone). cbn [repr s sdata sshape].
    exists l. split; [exact Hcell|]. split; [|reflexivity].
    constructor; cbn [sshape sstrides sdata]; auto; unfold spos; cbn [sdata sstrides].
    + pose proof (zlen_nonneg vs). lia.
    + intros i Hi. specialize (Hin i Hi). lia.
    + intros i j Hi Hj E. apply Hinj; auto. lia.
Qed.
Print Assumptions C60_strided.

(** Lists in the formats: 0 . 7 / . . . / 8 9 . in a heap with unused cells
    around them. *)
Example C60_flatcoo_case :
  let h := [[VInt 99; VInt 0; VInt 2; VInt 6; VInt 7; VInt 98]; [VInt 5; VInt 7; VInt 8; VInt 9]] in
  let f := Buf 4 1 0 VNone in let d := Buf 4 0 1 (VInt 0) in
  holds h f (map VInt [0; 2; 6; 7]) /\ holds h d [VInt 5; VInt 7; VInt 8; VInt 9]
  /\ flat_format [3; 3] [0; 2; 6; 7]
  /\ get_elem h (SFlatCOO [3; 3] f d) [2; 1] = Ok (VInt 9)
  /\ get_elem h (SFlatCOO [3; 3] f d) [1; 1] = Ok (VInt 0).
Proof.
  cbv zeta. split; [|split; [|split; [|split; reflexivity]]].
  - eexists. split; [reflexivity|]. unfold zlen. cbn. repeat split; lia.
  - eexists. split; [reflexivity|]. unfold zlen. cbn. repeat split; lia.
  - split; [repeat constructor|]; unfold n_elements; cbn; repeat constructor; lia.
Qed.
Example C60_coo_case :
  let h := [map VInt [0; 0; 2; 2; 0; 2; 0; 1]; [VInt 5; VInt 7; VInt 8; VInt 9]] in
  let ind := Str [2; 4] [4; 1] (Buf 8 0 0 VNone) in let d := Buf 4 0 1 (VInt 0) in
  coo_format [3; 3] [[0; 0; 2; 2]; [0; 2; 0; 1]] 4
  /\ holds h (sdata ind) (map VInt (concat [[0; 0; 2; 2]; [0; 2; 0; 1]]))
  /\ get_elem h (SCOO [3; 3] ind d) [2; 1] = Ok (VInt 9)
  /\ get_elem h (SCOO [3; 3] ind d) [1; 1] = Ok (VInt 0).
Proof.
  cbv zeta. split; [|split; [|split; reflexivity]].
  - split; [reflexivity|]. split; [repeat constructor|]. split.
    + intros p Hp. do 4 (destruct p as [|p]; [cbn; repeat constructor; lia|]). lia.
    + intros p q Hpq Hq. do 4 (destruct p as [|p]; [do 4 (destruct q as [|q]; [try lia; cbn;
        (apply rml_head; [lia|reflexivity]) || (apply rml_tail, rml_head; [lia|reflexivity])|]); lia|]). lia.
  - eexists. split; [reflexivity|]. unfold zlen. cbn. repeat split; lia.
Qed.
Example C60_csr_case :
  let h := [map VInt [0; 2; 2; 4]; map VInt [0; 2; 0; 1]; [VInt 5; VInt 7; VInt 8; VInt 9]] in
  let crow := Buf 4 0 0 VNone in let col := Buf 4 0 1 VNone in let d := Buf 4 0 2 (VInt 0) in
  csr_format 3 3 [0; 2; 2; 4] [0; 2; 0; 1]
  /\ holds h crow (map VInt [0; 2; 2; 4]) /\ holds h col (map VInt [0; 2; 0; 1])
  /\ get_elem h (SCSR [3; 3] crow col d) [2; 1] = Ok (VInt 9)
  /\ get_elem h (SCSR [3; 3] crow col d) [1; 1] = Ok (VInt 0).
Proof.
  cbv zeta. split; [|split; [|split; [|split; reflexivity]]].
  - repeat (split; [reflexivity || (repeat constructor; lia)|]). intros r p q Hr Hp Hpq Hq.
    assert (r = 0 \/ r = 1 \/ r = 2)%nat as [->|[->| ->]] by lia; cbn in Hp, Hq;
      do 4 (destruct p as [|p]; [do 4 (destruct q as [|q]; [cbn in *; lia|]); lia|]); lia.
  - eexists. split; [reflexivity|]. unfold zlen. cbn. repeat split; lia.
  - eexists. split; [reflexivity|]. unfold zlen. cbn. repeat split; lia.
Qed.
(** A 3 x 2 array in Fortran order and a row repeated three times. *)
Example C60_strided_case :
  let h := [map VInt [1; 2; 3; 4; 5; 6]] in
  holds h (Buf 6 0 0 VNone) (map VInt [1; 2; 3; 4; 5; 6])
  /\ (forall i, in_box i [3; 2] -> 0 <= zdot i [1; 3] < 6)
  /\ (forall i, in_box i [3; 6] -> 0 <= zdot i [0; 1] < 6)
  /\ get_elem h (SStrided (Str [3; 2] [1; 3] (Buf 6 0 0 VNone))) [1; 1] = Ok (VInt 5)
  /\ get_elem h (SStrided (Str [3; 6] [0; 1] (Buf 6 0 0 VNone))) [2; 1] = Ok (VInt 2).
Proof.
  cbv zeta. split; [|split; [|split; [|split; reflexivity]]].
  - eexists. split; [reflexivity|]. unfold zlen. cbn. repeat split; lia.
  - intros i Hi. inversion Hi as [|x ? i1 ? Hx Hi1]; subst. inversion Hi1 as [|y ? i2 ? Hy Hi2]; subst.
    inversion Hi2; subst. cbn. lia.
  - intros i Hi. inversion Hi as [|x ? i1 ? Hx Hi1]; subst. inversion Hi1 as [|y ? i2 ? Hy Hi2]; subst.
    inversion Hi2; subst. cbn. lia.
Qed.

(** C78: the matrix printed by slice_tools.show. *)
From Coq Require Import ZArith String Ascii Bool Arith Lia List.
From Verif Require Import Version VersionFacts Versioneer Setup PropSetup.
From Verif Require PropText.
Import ListNotations.
Open Scope list_scope.

(** * Model *)

(** The dictionary from (row, column) to an int. *)
Definition matrix := list ((Z * Z) * Z).
(** A.get((i, j)) *)
Definition entry (A : matrix) (i j : Z) : option Z :=
  option_map snd (find (fun e => Z.eqb (fst (fst e)) i && Z.eqb (snd (fst e)) j) A).
(** max() of a nonempty sequence. *)
Definition max_of (x : Z) (l : list Z) : Z := fold_left Z.max l x.
(** '%ks' % t *)
Definition justify (k : nat) (t : text) : text := repeat " "%char (k - List.length t) ++ t.
(** range(n) *)
Definition upto (n : Z) : list Z := map Z.of_nat (seq 0 (Z.to_nat n)).

(** show: slice_tools.py:289-305, the list of the printed lines.  Values are
    ints, as in all matrices of this module. *)
Definition show (A : matrix) : list text :=
  let '(n, m, w) :=
    match A with
    | [] => (0%Z, 0%Z, 0)
    | ((i, j), _) :: r =>
        ((max_of i (map (fun e => fst (fst e)) r) + 1)%Z, (max_of j (map (fun e => snd (fst e)) r) + 1)%Z,
         list_max (map (fun e => List.length (int_text (snd e))) A))
    end in
  [T "["] ++
  map (fun i => concat (map (fun j => justify (w + 1) (match entry A i j with Some v => int_text v | None => T "-" end))
                            (upto m))) (upto n)
  ++ [T "]"].

(** * Specification *)

(** The text of an entry. *)
Definition cell_text (o : option Z) : text := match o with Some v => int_text v | None => T "-" end.
(** [a] is the largest number of [l]. *)
Definition largest (a : Z) (l : list Z) : Prop := In a l /\ Forall (fun x => (x <= a)%Z) l.

(** The dimensions: one more than the largest row and the largest column. *)
Definition dims (A : matrix) (n m : Z) : Prop :=
  (A = [] /\ n = 0%Z /\ m = 0%Z)
  \/ (largest (n - 1) (map (fun e => fst (fst e)) A) /\ largest (m - 1) (map (fun e => snd (fst e)) A)).

(** * Lemmas *)
Lemma max_of_largest x l : largest (max_of x l) (x :: l).
Proof.
  unfold max_of. revert x. induction l as [|y l IH]; intros x; cbn [fold_left].
  - split; [now left|]. constructor; [lia|constructor].
  - destruct (IH (Z.max x y)) as [H1 H2]. inversion H2 as [|? ? Hm Hl]; subst. split.
    + destruct H1 as [H1|H1]; [|right; now right]. rewrite <- H1. destruct (Z.max_spec x y) as [[_ ->]|[_ ->]]; [right; now left|now left].
    + constructor; [lia|]. constructor; [lia|exact Hl].
Qed.

Lemma entry_In A i j v : entry A i j = Some v -> In ((i, j), v) A.
Proof.
  unfold entry. destruct (find _ A) as [[[a b] c]|] eqn:E; [|discriminate]. cbn. intros H. injection H as ->.
  apply find_some in E. cbn in E. destruct E as [E1 E2]. apply andb_true_iff in E2. rewrite !Z.eqb_eq in E2. destruct E2. now subst.
Qed.

Lemma show_dims A : exists n m w, dims A n m
  /\ (forall e, In e A -> List.length (int_text (snd e)) <= w) /\ (A <> [] -> 1 <= w)
  /\ show A = [T "["] ++ map (fun i => concat (map (fun j => justify (w + 1) (cell_text (entry A i j))) (upto m))) (upto n) ++ [T "]"].
Proof.
  destruct A as [|[[i j] v] r]; [exists 0%Z, 0%Z, 0; split; [left; auto|]; split; [intros e []|]; split; [congruence|reflexivity]|].
  set (A := ((i, j), v) :: r).
  exists (max_of i (map (fun e => fst (fst e)) r) + 1)%Z, (max_of j (map (fun e => snd (fst e)) r) + 1)%Z,
    (list_max (map (fun e => List.length (int_text (snd e))) A)).
  assert (W : forall e, In e A -> List.length (int_text (snd e)) <= list_max (map (fun e => List.length (int_text (snd e))) A)).
  { intros e He. pose proof (proj1 (list_max_le (map (fun e => List.length (int_text (snd e))) A) _) (le_n _)) as F.
    rewrite Forall_forall in F. apply F. now apply (in_map (fun e => List.length (int_text (snd e)))). }
  split.
  { right. rewrite !Z.add_simpl_r. split; apply max_of_largest. }
  split; [exact W|]. split; [|reflexivity]. intros _. specialize (W ((i, j), v) (or_introl eq_refl)). cbn [snd] in W.
  destruct (PropText.int_text_chars v) as [N _]. destruct (int_text v); [congruence|]. cbn [List.length] in W. lia.
Qed.

Lemma upto_In n i : In i (upto n) <-> (0 <= i < n)%Z.
Proof.
  unfold upto. rewrite in_map_iff. split.
  - intros (k & <- & H). apply in_seq in H. lia.
  - intros H. exists (Z.to_nat i). split; [lia|]. apply in_seq. lia.
Qed.
Lemma upto_length n : List.length (upto n) = Z.to_nat n.
Proof. unfold upto. now rewrite map_length, seq_length. Qed.
Lemma upto_nth n i d : (0 <= i < n)%Z -> nth (Z.to_nat i) (upto n) d = i.
Proof.
  intros H. unfold upto. rewrite (nth_indep _ d (Z.of_nat 0)) by (rewrite map_length, seq_length; lia).
  rewrite map_nth, seq_nth by lia. lia.
Qed.

Lemma int_text_path v : path (int_text v).
Proof.
  split; [apply PropText.int_text_chars|]. unfold int_text.
  assert (D : forall n, Forall (fun c => is_space c = false) (nat_text n)).
  { intros n. unfold nat_text. eapply Forall_impl; [|apply string_of_uint_digits]. intros c Hc.
    unfold is_digit in Hc. destruct c as [[] [] [] [] [] [] [] []]; try discriminate Hc; reflexivity. }
  destruct (v <? 0)%Z; [constructor; [reflexivity|apply D]|apply D].
Qed.
Lemma cell_path o : path (cell_text o).
Proof. destruct o; [apply int_text_path|]. split; [discriminate|repeat constructor]. Qed.

Lemma justify_length k t : List.length t <= k -> List.length (justify k t) = k.
Proof. intros H. unfold justify. rewrite app_length, repeat_length. lia. Qed.

(** The words of a row are its cells. *)
Lemma row_words (k : nat) (cells : list text) : Forall (fun t => path t /\ List.length t < k) cells ->
  words (concat (map (justify k) cells)) = cells
  /\ (concat (map (justify k) cells) = [] \/ exists r, concat (map (justify k) cells) = " "%char :: r).
Proof.
  induction 1 as [|t cells [Ht Hk] _ [IH1 IH2]]; [split; [reflexivity|now left]|]. cbn [map concat].
  unfold justify at 1 3 5. destruct (k - List.length t) as [|d] eqn:E; [lia|]. cbn [repeat app].
  split; [|right; eauto]. change (" "%char :: (repeat " "%char d ++ t) ++ concat (map (justify k) cells))
    with ((" "%char :: repeat " "%char d ++ t) ++ concat (map (justify k) cells)).
  assert (S : Forall (fun c => is_space c = true) (" "%char :: repeat " "%char d)).
  { constructor; [reflexivity|]. apply Forall_forall. intros c Hc. apply repeat_spec in Hc. now subst c. }
  change (" "%char :: repeat " "%char d ++ t) with ((" "%char :: repeat " "%char d) ++ t). rewrite <- app_assoc.
  rewrite <- (app_nil_r (t ++ _)). rewrite words_pad by auto.
  destruct IH2 as [E2|[r E2]]; rewrite E2 in *.
  - rewrite app_nil_r, words_one by exact Ht. cbn in IH1. now rewrite <- IH1.
  - rewrite words_first by (auto; reflexivity). f_equal. rewrite <- IH1.
    change (" "%char :: r) with ([" "%char] ++ r). rewrite <- (app_nil_r r) at 2. now rewrite words_pad by (auto; repeat constructor).
Qed.

Lemma show_line A : exists n m w, dims A n m /\ List.length (show A) = Z.to_nat n + 2
  /\ nth 0 (show A) [] = T "[" /\ nth (Z.to_nat n + 1) (show A) [] = T "]"
  /\ forall i, (0 <= i < n)%Z ->
       nth (Z.to_nat i + 1) (show A) [] = concat (map (justify (w + 1)) (map (fun j => cell_text (entry A i j)) (upto m)))
       /\ Forall (fun t => path t /\ List.length t < w + 1) (map (fun j => cell_text (entry A i j)) (upto m)).
Proof.
  destruct (show_dims A) as (n & m & w & D & W & W1 & E). exists n, m, w. rewrite E.
  split; [exact D|]. split; [rewrite !app_length, map_length, upto_length; cbn; lia|].
  split; [reflexivity|]. split.
  - replace (Z.to_nat n + 1) with (S (Z.to_nat n)) by lia. cbn [app nth]. rewrite app_nth2; rewrite map_length, upto_length; [|lia].
    now rewrite Nat.sub_diag.
  - intros i Hi. replace (Z.to_nat i + 1) with (S (Z.to_nat i)) by lia. cbn [app nth]. split.
    + rewrite app_nth1 by (rewrite map_length, upto_length; lia).
      set (f := fun i0 => concat _). rewrite (nth_indep _ [] (f 0%Z)) by (rewrite map_length, upto_length; lia).
      rewrite map_nth, upto_nth by exact Hi. unfold f. now rewrite map_map.
    + apply Forall_map, Forall_forall. intros j Hj. split; [apply cell_path|].
      destruct (entry A i j) as [v|] eqn:Ev; cbn [cell_text].
      * apply entry_In in Ev. specialize (W _ Ev). cbn [snd] in W. lia.
      * destruct D as [(-> & -> & _)|[D _]]; [lia|]. assert (A <> []) by (intros ->; destruct D as [[] _]).
        specialize (W1 H). cbn. lia.
Qed.

Lemma concat_slice (k : nat) (cells : list text) j : Forall (fun t => List.length t < k) cells ->
  j < List.length cells ->
  firstn k (skipn (k * j) (concat (map (justify k) cells))) = justify k (nth j cells []).
Proof.
  intros H. revert j. induction H as [|t cells Ht _ IH]; intros j Hj; [cbn in Hj; lia|]. cbn [map concat nth].
  pose proof (justify_length k t ltac:(lia)) as L. destruct j as [|j].
  - rewrite Nat.mul_0_r. cbn [skipn]. rewrite firstn_app, L, Nat.sub_diag, firstn_O, app_nil_r. apply firstn_all2. lia.
  - rewrite skipn_app, L. rewrite skipn_all2 by nia. cbn [app]. replace (k * S j - k) with (k * j) by nia. apply IH. cbn in Hj. lia.
Qed.

Lemma concat_width (k : nat) (cells : list text) : Forall (fun t => List.length t < k) cells ->
  List.length (concat (map (justify k) cells)) = k * List.length cells.
Proof.
  induction 1 as [|t cells Ht _ IH]; [cbn; lia|]. cbn [map concat List.length]. rewrite app_length, justify_length, IH by lia. lia.
Qed.

Lemma int_text_dash v : int_text v <> T "-".
Proof.
  unfold int_text. destruct (v <? 0)%Z eqn:E.
  - intros H. injection H as H. exact (nat_text_nonempty _ H).
  - intros H. assert (In "-"%char (nat_text (Z.to_N v))) by (rewrite H; now left).
    unfold nat_text in H0. pose proof (string_of_uint_digits (N.to_uint (Z.to_N v))) as D. rewrite Forall_forall in D.
    specialize (D _ H0). discriminate D.
Qed.

Lemma cell_text_inj a b : cell_text a = cell_text b -> a = b.
Proof.
  destruct a as [a|], b as [b|]; cbn [cell_text]; intros E; [f_equal; now apply PropText.int_text_inj| | |reflexivity];
    exfalso; [now apply (int_text_dash a)|now apply (int_text_dash b)].
Qed.

(** * Theorems *)

(** The matrix is printed row by row, in columns of one width in which the entries
    are aligned to the right, with - for the entries that are not set. *)
Theorem C78_rows A : exists n m width, dims A n m
  /\ List.length (show A) = Z.to_nat n + 2
  /\ nth 0 (show A) [] = T "[" /\ nth (Z.to_nat n + 1) (show A) [] = T "]"
  /\ forall i, (0 <= i < n)%Z ->
       let line := nth (Z.to_nat i + 1) (show A) [] in
       List.length line = width * Z.to_nat m
       /\ forall j, (0 <= j < m)%Z ->
            nth_error (words line) (Z.to_nat j) = Some (cell_text (entry A i j))
            /\ exists k, firstn width (skipn (width * Z.to_nat j) line) = repeat " "%char (S k) ++ cell_text (entry A i j)
                 /\ S k + List.length (cell_text (entry A i j)) = width.
Proof.
  destruct (show_line A) as (n & m & w & D & L & L0 & L1 & R). exists n, m, (w + 1).
  split; [exact D|]. split; [exact L|]. split; [exact L0|]. split; [exact L1|]. intros i Hi. cbn zeta.
  destruct (R i Hi) as [-> F]. set (cells := map _ (upto m)) in *.
  assert (Lc : List.length cells = Z.to_nat m) by (unfold cells; now rewrite map_length, upto_length).
  assert (F' : Forall (fun t => List.length t < w + 1) cells) by (eapply Forall_impl; [|exact F]; cbn; tauto).
  split; [rewrite concat_width by exact F'; now rewrite Lc|]. intros j Hj.
  assert (N : nth (Z.to_nat j) cells [] = cell_text (entry A i j)).
  { unfold cells. set (f := fun j0 => cell_text _). rewrite (nth_indep _ [] (f 0%Z)) by (rewrite map_length, upto_length; lia).
    now rewrite map_nth, upto_nth. }
  split.
  - rewrite (proj1 (row_words _ _ F)). rewrite <- N. apply nth_error_nth'. lia.
  - rewrite concat_slice by (try exact F'; lia). rewrite N. unfold justify.
    assert (K : List.length (cell_text (entry A i j)) < w + 1).
    { rewrite <- N. rewrite Forall_forall in F'. apply F', nth_In. lia. }
    exists (w - List.length (cell_text (entry A i j))). split; [f_equal; f_equal; lia|lia].
Qed.
Print Assumptions C78_rows.

Lemma dims_bound A n m i j v : dims A n m -> In ((i, j), v) A -> (i < n /\ j < m)%Z.
Proof.
  intros [(-> & _)|[[_ Hn] [_ Hm]]] H; [destruct H|]. rewrite Forall_forall in Hn, Hm.
  specialize (Hn i (in_map (fun e => fst (fst e)) A _ H)). specialize (Hm j (in_map (fun e => snd (fst e)) A _ H)). lia.
Qed.

Lemma show_entry A B i j v : show A = show B -> (0 <= i)%Z -> (0 <= j)%Z -> entry A i j = Some v -> entry B i j = Some v.
Proof.
  intros E Hi Hj Hv.
  destruct (C78_rows A) as (n & m & w & D & L & _ & _ & R). destruct (C78_rows B) as (n' & m' & w' & D' & L' & _ & _ & R').
  destruct (dims_bound A n m i j v D (entry_In _ _ _ _ Hv)) as [Hn Hm].
  assert (Hi' : (i < n')%Z) by (rewrite E, L' in L; lia).
  destruct (R i ltac:(lia)) as [_ Rj]. destruct (Rj j ltac:(lia)) as [Rw _].
  destruct (R' i ltac:(lia)) as [_ Rj']. rewrite <- E in Rj'. rewrite Hv in Rw.
  destruct (Z_lt_ge_dec j m') as [Hm'|Hm'].
  - destruct (Rj' j ltac:(lia)) as [Rw' _]. rewrite Rw in Rw'. injection Rw' as Rw'.
    change (int_text v) with (cell_text (Some v)) in Rw'. apply cell_text_inj in Rw'. congruence.
  - exfalso. destruct (show_line B) as (n2 & m2 & w2 & D2 & L2 & _ & _ & R2).
    assert (m2 = m').
    { destruct D' as [(-> & _ & ->)|[_ [M1 M2]]], D2 as [(? & _ & ->)|[_ [M3 M4]]]; try reflexivity; try (subst; now destruct M1 || now destruct M3).
      rewrite Forall_forall in M2, M4. specialize (M2 _ M3). specialize (M4 _ M1). lia. }
    subst m2. rewrite E in Rw. destruct (R2 i ltac:(rewrite E, L2 in L; lia)) as [E2 F2]. rewrite E2 in Rw.
    rewrite (proj1 (row_words _ _ F2)) in Rw. assert (nth_error (map (fun j0 => cell_text (entry B i j0)) (upto m')) (Z.to_nat j) <> None) by (rewrite Rw; discriminate).
    apply nth_error_Some in H. rewrite map_length, upto_length in H. lia.
Qed.

(** Matrices that print the same have the same entries at nonnegative indices. *)
Theorem C78_determines A B : show A = show B ->
  forall i j, (0 <= i)%Z -> (0 <= j)%Z -> entry A i j = entry B i j.
Proof.
  intros E i j Hi Hj. destruct (entry A i j) as [v|] eqn:Ea.
  - symmetry. now apply (show_entry A B).
  - destruct (entry B i j) as [v|] eqn:Eb; [|reflexivity]. rewrite <- Ea. now apply (show_entry B A).
Qed.
Print Assumptions C78_determines.

(** Entries at negative indices are not printed. *)
Theorem C78_negative_hidden : exists A B i j, show A = show B /\ entry A i j <> entry B i j.
Proof. exists [((0, 0), 1); ((-1, 0), 5)]%Z, [((0, 0), 1); ((-1, 0), 7)]%Z, (-1)%Z, 0%Z. split; [vm_compute; reflexivity|discriminate]. Qed.
Print Assumptions C78_negative_hidden.

Example C78_case :
  show [((0, 0), 1); ((1, 2), -12)]%Z = map T ["["; "   1   -   -"; "   -   - -12"; "]"]%string.
Proof. vm_compute. reflexivity. Qed.

(** Enumerating and slicing the sparse storages. *)
From Coq Require Import Sorting.Sorted Permutation ZifyBool.
From Verif Require Import Py SliceTools Basics Storage Spec SliceFacts IndexFacts
  CompressFacts ReduceFacts SolverFacts SolveFacts Repr ReprFacts ViewFacts BuildFacts.

(** * solve_index with shared data *)
Lemma solver_data B sh st : sliced B sh st -> sh <> [] ->
  exists sd, init_diophantine st (Some sh) = Ok sd
    /\ forall pos, exists r, solve_index_data pos sh sd = Ok r
        /\ forall j, r = Some j <-> in_box j sh /\ zdot j st = pos.
Proof.
  intros H Hne. destruct (solve_sliced B sh st 0 H Hne) as (r0 & E0 & _).
  unfold solve_index in E0. destruct (init_diophantine st (Some sh)) as [sd|e] eqn:Es; [|discriminate].
  exists sd. split; [reflexivity|]. intros pos.
  destruct (solve_sliced B sh st pos H Hne) as (r & E & Hr). unfold solve_index in E.
  rewrite Es in E. cbn [bind] in E. eauto.
Qed.

(** * indices_and_data_position *)
Definition numbered (E : list (list Z * pyval)) : list (list Z * Z) :=
  map (fun k => (fst (nth (Z.to_nat k) E ([], VNone)), k)) (zseq (zlen E)).

Lemma In_numbered E j p : In (j, p) (numbered E) <->
  0 <= p < zlen E /\ j = fst (nth (Z.to_nat p) E ([], VNone)).
Proof.
  unfold numbered. rewrite in_map_iff. split.
  - intros (k & Hk & Hin). injection Hk as <- ->. apply In_zseq in Hin. auto.
  - intros [Hp ->]. exists p. split; [reflexivity|]. now apply In_zseq.
Qed.

Lemma map_nth_self (l : list Z) : map (fun j => nth (Z.to_nat j) l 0) (zseq (zlen l)) = l.
Proof. apply map_nth_zseq. Qed.

Lemma coo_iad_ok h sh ind d E : entries h (SCOO sh ind d) E -> coo_iad h ind = Ok (numbered E).
Proof.
  intros (Hn & Hne & Ho & Hd & Hsh & Hst & Hi & _). unfold coo_iad. rewrite Hsh.
  change (pyget [zlen sh; zlen E] 1) with (@Ok Z (zlen E)).
  change (pyget [zlen sh; zlen E] 0) with (@Ok Z (zlen sh)). cbn [bind].
  unfold numbered. apply mapM_ok. intros p Hp. apply In_zseq in Hp.
  assert (Hk : (Z.to_nat p < length E)%nat) by (unfold zlen in Hp; lia).
  pose proof (ordered_in_box _ _ _ Ho Hk) as Hb.
  rewrite mapM_ok with (g := fun j => nth (Z.to_nat j) (fst (nth (Z.to_nat p) E ([], VNone))) 0).
  - cbn [bind]. do 2 f_equal. rewrite <- (in_box_zlen _ _ Hb). apply map_nth_self.
  - intros j Hj. apply In_zseq in Hj.
    rewrite (coo_index_int h ind (zlen sh) E); auto. unfold zlen. now rewrite Nat2Z.id.
Qed.

Lemma flatcoo_iad_ok h sh f d E : entries h (SFlatCOO sh f d) E -> positive sh ->
  flatcoo_iad h sh f = Ok (numbered E).
Proof.
  intros (Hn & Hne & Ho & Hd & Hf & _) Hp. unfold flatcoo_iad.
  destruct (solver_data _ _ _ (sliced_contiguous sh Hp) Hne) as (sd & Es & Hsd). rewrite Es. cbn [bind].
  assert (Hz : bsize f = zlen E).
  { destruct Hf as (l & _ & _ & Hz & _). now rewrite zlen_map in Hz. }
  rewrite Hz. unfold numbered. apply mapM_ok. intros p Hpp. apply In_zseq in Hpp.
  assert (Hk : (Z.to_nat p < length E)%nat) by (unfold zlen in Hpp; lia).
  pose proof (ordered_in_box _ _ _ Ho Hk) as Hb.
  rewrite (flatcoo_int h f sh E) by assumption. cbn [bind].
  destruct (Hsd (zdot (fst (nth (Z.to_nat p) E ([], VNone))) (make_strides sh))) as (r & Er & Hr).
  rewrite Er. cbn [bind].
  rewrite (proj2 (Hr (fst (nth (Z.to_nat p) E ([], VNone))))) by auto. reflexivity.
Qed.

Lemma zrange_app a b c : a <= b <= c -> zrange a b ++ zrange b c = zrange a c.
Proof.
  intros H. replace c with (b + Z.of_nat (Z.to_nat (c - b))) by lia.
  induction (Z.to_nat (c - b)) as [|n IH].
  - unfold zrange at 2. rewrite zseq_nonpos by lia. rewrite Z.add_0_r. apply app_nil_r.
  - assert (G : forall x, x <= b -> zrange x (b + Z.of_nat (S n)) = zrange x (b + Z.of_nat n) ++ [b + Z.of_nat n]).
    { intros x Hx. unfold zrange. replace (b + Z.of_nat (S n) - x) with (b + Z.of_nat n - x + 1) by lia.
      rewrite zseq_S by lia. rewrite map_app. cbn [map]. do 2 f_equal. lia. }
    rewrite !G by lia. rewrite app_assoc. now rewrite IH.
Qed.

Lemma In_zrange a b x : In x (zrange a b) <-> a <= x < b.
Proof.
  unfold zrange. rewrite in_map_iff. split.
  - intros (k & <- & Hk). apply In_zseq in Hk. lia.
  - intros H. exists (x - a). split; [lia|]. apply In_zseq. lia.
Qed.

Lemma zrange_0 n : zrange 0 n = zseq n.
Proof. unfold zrange. rewrite Z.sub_0_r. rewrite <- (map_id (zseq n)) at 2. apply map_ext. lia. Qed.

Lemma csr_iad_ok h sh crow col d E : entries h (SCSR sh crow col d) E ->
  csr_iad h sh crow col = Ok (numbered E).
Proof.
  intros (Hn & Hl & Ho & Hd & Hr & Hc & _).
  destruct sh as [|n [|m [|? ?]]]; cbn in Hl; try lia. unfold csr_iad.
  change (pyget [n; m] 0) with (@Ok Z n). cbn [bind nth] in *.
  assert (Hn0 : 0 <= n) by now inversion Hn.
  set (cnt := fun r => zlen (filter (fun x => x <? r) (column 0 E))) in *.
  rewrite <- (map_map cnt VInt) in Hr.
  assert (Hcnt : forall q, 0 <= q <= n -> buf_int h crow q = Ok (cnt q)).
  { intros q Hq. rewrite (buf_int_ok _ _ _ _ Hr).
    - f_equal. unfold znth. rewrite nth_zseq_map by lia. now rewrite Z2Nat.id by lia.
    - rewrite zlen_map, zseq_length. lia. }
  pose proof (column0_sorted n m E Ho) as Hs0.
  assert (Hc0 : zlen (column 0 E) = zlen E) by (unfold column; apply zlen_map).
  assert (Hle : forall q, 0 <= cnt q <= zlen E).
  { intros q. split; [apply zlen_nonneg|]. rewrite <- Hc0. unfold cnt, zlen. clear.
    induction (column 0 E) as [|x l IH]; cbn [filter length]; [lia|].
    destruct (x <? q); cbn [length]; lia. }
  assert (Hmono : forall q, cnt q <= cnt (q + 1)).
  { intros q. unfold cnt, zlen. clear. induction (column 0 E) as [|x l IH]; cbn [filter length]; [lia|].
    destruct (Z.ltb_spec x q), (Z.ltb_spec x (q + 1)); cbn [length]; lia. }
  assert (Hrow : forall q p, 0 <= p < zlen E ->
    (p < cnt q <-> nth 0 (fst (nth (Z.to_nat p) E ([], VNone))) 0 < q)).
  { intros q p Hp. rewrite <- column_nth by (unfold zlen in Hp; lia).
    rewrite <- (filter_lt_sorted (column 0 E) q Hs0) by (unfold zlen in *; lia). unfold cnt. lia. }
  set (g := fun k => (fst (nth (Z.to_nat k) E ([], VNone)), k)).
  assert (G : forall k, Z.of_nat k <= n ->
    csr_iad_rows h crow col (map (fun i => n - Z.of_nat k + i) (zseq (Z.of_nat k)))
    = Ok (map g (zrange (cnt (n - Z.of_nat k)) (cnt n)))).
  { induction k as [|k IH]; intros Hk.
    - rewrite zseq_nonpos by lia. cbn [map csr_iad_rows]. rewrite Z.sub_0_r.
      unfold zrange. rewrite zseq_nonpos by lia. reflexivity.
    - rewrite zseq_cons by lia. cbn [map csr_iad_rows]. rewrite map_map.
      set (r := n - Z.of_nat (S k)) in *. rewrite Z.add_0_r.
      rewrite Hcnt by lia. rewrite Hcnt by lia. cbn [bind].
      rewrite mapM_ok with (g := g).
      + cbn [bind]. replace (Z.of_nat (S k) - 1) with (Z.of_nat k) by lia.
        rewrite (map_ext _ (fun i => n - Z.of_nat k + i)) by (intros; unfold r; lia).
        rewrite IH by lia. cbn [bind]. rewrite <- map_app. do 2 f_equal.
        replace (n - Z.of_nat k) with (r + 1) by (unfold r; lia).
        assert (Hmono2 : forall j, cnt (r + 1) <= cnt (r + 1 + Z.of_nat j)).
        { induction j as [|j IHj]; [rewrite Z.add_0_r; lia|].
          specialize (Hmono (r + 1 + Z.of_nat j)).
          replace (r + 1 + Z.of_nat (S j)) with (r + 1 + Z.of_nat j + 1) by lia. lia. }
        specialize (Hmono2 k). replace (r + 1 + Z.of_nat k) with n in Hmono2 by (unfold r; lia).
        apply zrange_app. split; [apply Hmono|exact Hmono2].
      + intros p Hp. apply In_zrange in Hp. pose proof (Hle r). pose proof (Hle (r + 1)).
        assert (Hpe : 0 <= p < zlen E) by lia.
        assert (Hk' : (Z.to_nat p < length E)%nat) by (unfold zlen in Hpe; lia).
        rewrite (buf_int_ok _ _ _ _ Hc) by (unfold column; rewrite zlen_map; lia). cbn [bind].
        unfold g. f_equal. f_equal. unfold znth. rewrite column_nth by assumption.
        pose proof (ordered_in_box _ _ _ Ho Hk') as Hb.
        pose proof (Hrow r p Hpe) as R1. pose proof (Hrow (r + 1) p Hpe) as R2.
        destruct (in_box_2 _ _ _ Hb) as (x & y & Ex & _ & _). rewrite Ex in *. cbn [nth] in *.
        f_equal. lia. }
  specialize (G (Z.to_nat n)). rewrite Z2Nat.id in G by lia. specialize (G ltac:(lia)).
  rewrite Z.sub_diag in G. rewrite (map_ext _ (fun i => i)) in G by lia. rewrite map_id in G.
  rewrite G. unfold numbered. fold g. do 2 f_equal.
  assert (E0 : cnt 0 = 0).
  { destruct (Z.eq_dec (cnt 0) 0) as [|Hx]; [assumption|exfalso]. pose proof (Hle 0).
    assert (Hp : 0 <= 0 < zlen E) by lia. pose proof (Hrow 0 0 Hp) as R.
    assert (Hk : (Z.to_nat 0 < length E)%nat) by (unfold zlen in Hp; lia).
    pose proof (ordered_in_box _ _ _ Ho Hk) as Hb.
    destruct (in_box_2 _ _ _ Hb) as (x & y & Ex & Hx1 & _). rewrite Ex in R. cbn [nth] in R. lia. }
  assert (En : cnt n = zlen E).
  { destruct (Z.eq_dec (cnt n) (zlen E)) as [|Hx]; [assumption|exfalso]. pose proof (Hle n).
    assert (Hp : 0 <= zlen E - 1 < zlen E) by lia. pose proof (Hrow n _ Hp) as R.
    assert (Hk : (Z.to_nat (zlen E - 1) < length E)%nat) by (unfold zlen in *; lia).
    pose proof (ordered_in_box _ _ _ Ho Hk) as Hb.
    destruct (in_box_2 _ _ _ Hb) as (x & y & Ex & Hx1 & _). rewrite Ex in R. cbn [nth] in R. lia. }
  rewrite E0, En. apply zrange_0.
Qed.

Lemma sparse_iad_ok h s E : entries h s E -> positive (shape_of s) -> sparse_iad h s = Ok (numbered E).
Proof.
  intros HE Hp. destruct s; try (cbn in HE; tauto); cbn [sparse_iad shape_of] in *.
  - now apply (coo_iad_ok h shape indices data).
  - now apply (flatcoo_iad_ok h shape findices data).
  - now apply (csr_iad_ok h shape crow col data).
Qed.

(** * Sorting *)
Lemma lex_leb_spec a b : length a = length b -> (lex_leb a b = true <-> a = b \/ row_major_lt a b).
Proof.
  revert b. induction a as [|x a IH]; intros [|y b] Hl; cbn in Hl; try lia; cbn [lex_leb].
  - split; auto.
  - destruct (Z.ltb_spec x y) as [Hxy|Hxy]; [|destruct (Z.ltb_spec y x) as [Hyx|Hyx]].
    + split; auto. intros _. right. apply rml_head; lia.
    + split; [discriminate|]. intros [E|E].
      * injection E as -> _. lia.
      * inversion E; subst; lia.
    + assert (x = y) as <- by lia. rewrite IH by lia. split; intros [E|E].
      * left. congruence.
      * right. now apply rml_tail.
      * left. congruence.
      * right. inversion E; subst; [lia|assumption].
Qed.

Lemma insert_pair_perm p l : Permutation (insert_pair p l) (p :: l).
Proof.
  induction l as [|q l IH]; cbn [insert_pair]; [apply Permutation_refl|].
  destruct (pair_leb p q); [apply Permutation_refl|].
  eapply Permutation_trans; [apply perm_skip, IH|]. apply perm_swap.
Qed.

Lemma sorted_pairs_perm l : Permutation (sorted_pairs l) l.
Proof.
  induction l as [|p l IH]; cbn [sorted_pairs]; [apply Permutation_refl|].
  eapply Permutation_trans; [apply insert_pair_perm|]. now apply perm_skip.
Qed.

Lemma insert_pair_sorted n p l : length (fst p) = n -> Forall (fun q => length (fst q) = n) l ->
  ~ In (fst p) (map fst l) ->
  StronglySorted (fun x y => row_major_lt (fst x) (fst y)) l ->
  StronglySorted (fun x y => row_major_lt (fst x) (fst y)) (insert_pair p l).
Proof.
  intros Hp Hf Hni Hs. induction Hs as [|q l Hs IH Hq]; cbn [insert_pair].
  - repeat constructor.
  - inversion Hf as [|? ? Hql Hf']; subst. cbn [map] in Hni.
    assert (Hne : fst p <> fst q) by (intros E; apply Hni; now left).
    assert (Hni' : ~ In (fst p) (map fst l)) by (intros E; apply Hni; now right).
    unfold pair_leb. destruct (lex_eqb (fst p) (fst q)) eqn:El.
    { apply lex_eqb_eq in El. contradiction. }
    destruct (lex_leb (fst p) (fst q)) eqn:Ele.
    + apply lex_leb_spec in Ele; [|congruence]. destruct Ele as [|Hlt]; [contradiction|].
      constructor; [now constructor|]. constructor; [assumption|].
      eapply Forall_impl; [|exact Hq]. intros a Ha. cbn beta in *. eapply row_major_lt_trans; eassumption.
    + assert (Hlt : row_major_lt (fst q) (fst p)).
      { destruct (row_major_total (fst p) (fst q)) as [H|[H|H]]; [congruence| |contradiction|assumption].
        assert (lex_leb (fst p) (fst q) = true) by (apply lex_leb_spec; [congruence|auto]). congruence. }
      constructor; [now apply IH|].
      apply Forall_forall. intros a Ha. apply (Permutation_in _ (insert_pair_perm p l)) in Ha.
      destruct Ha as [<-|Ha]; [assumption|]. rewrite Forall_forall in Hq. now apply Hq.
Qed.

Lemma sorted_pairs_sorted n l : Forall (fun q => length (fst q) = n) l -> NoDup (map fst l) ->
  StronglySorted (fun x y => row_major_lt (fst x) (fst y)) (sorted_pairs l).
Proof.
  intros Hf Hnd. induction l as [|p l IH]; cbn [sorted_pairs]; [constructor|].
  inversion Hf; subst. cbn [map] in Hnd. inversion Hnd as [|? ? Hni Hnd']; subst.
  apply insert_pair_sorted with (n := length (fst p)); auto.
  - apply Forall_forall. intros q Hq. apply (Permutation_in _ (sorted_pairs_perm l)) in Hq.
    rewrite Forall_forall in H2. auto.
  - intros Hin. apply Hni. apply (Permutation_in _ (Permutation_map fst (sorted_pairs_perm l))). exact Hin.
Qed.

(** * slice_indices_and_data_position *)
Lemma slice_iad_loop_ok {P} sh0 sh st off sd (l : list (list Z * P)) :
  (forall pos, exists r, solve_index_data pos sh sd = Ok r
        /\ forall j, r = Some j <-> in_box j sh /\ zdot j st = pos) ->
  Forall (fun e => in_box (fst e) sh0) l ->
  exists L, slice_iad_loop sh0 (make_strides sh0) sh sd off l = Ok L
    /\ (forall j p, In (j, p) L <->
          exists ix, In (ix, p) l /\ in_box j sh /\ zdot j st = zdot ix (make_strides sh0) - off)
    /\ (NoDup (map fst l) -> NoDup (map fst L)).
Proof.
  intros Hsd Hf. induction Hf as [|[ix p] l Hb Hf IH]; cbn [slice_iad_loop].
  - exists []. split; [reflexivity|]. split; [|intros _; constructor].
    intros j p. split; [contradiction|]. intros (ix & [] & _).
  - cbn [fst] in Hb. rewrite get_position_ok; [|now apply in_box_len|apply make_strides_length]. cbn [bind].
    destruct (Hsd (zdot ix (make_strides sh0) - off)) as (r & Er & Hr). rewrite Er. cbn [bind].
    destruct IH as (L & EL & HL & Hnd). rewrite EL. cbn [bind].
    destruct r as [six|].
    + destruct (proj1 (Hr six) eq_refl) as [Hsb Hsd'].
      eexists. split; [reflexivity|]. split.
      * intros j q. split.
        -- intros [E|Hin].
           ++ injection E as <- <-. exists ix. split; [now left|auto].
           ++ apply HL in Hin. destruct Hin as (ix' & Hin & H). exists ix'. split; [now right|exact H].
        -- intros (ix' & [E|Hin] & Hj & Hz).
           ++ injection E as -> ->. left. f_equal.
              assert (Es : Some six = Some j) by (apply Hr; auto). now injection Es.
           ++ right. apply HL. eauto.
      * intros Hnd0. cbn [map fst] in *. inversion Hnd0 as [|? ? Hni Hnd0']; subst.
        constructor; [|now apply Hnd]. intros Hin. apply in_map_iff in Hin.
        destruct Hin as ([j q] & Ej & Hin). cbn [fst] in Ej. subst j. apply HL in Hin.
        destruct Hin as (ix' & Hin & _ & Hz). apply Hni.
        assert (ix' = ix) as <-.
        { apply (ravel_inj _ _ sh0); auto.
          - rewrite Forall_forall in Hf. exact (Hf _ Hin).
          - lia. }
        now apply (in_map fst) in Hin.
    + exists L. split; [reflexivity|]. split.
      * intros j q. split.
        -- intros Hin. apply HL in Hin. destruct Hin as (ix' & Hin & H). exists ix'. split; [now right|exact H].
        -- intros (ix' & [E|Hin] & Hj & Hz).
           ++ injection E as -> ->. assert (Es : None = Some j) by (apply Hr; auto). discriminate.
           ++ apply HL. eauto.
      * intros Hnd0. cbn [map] in Hnd0. inversion Hnd0; subst. now apply Hnd.
Qed.

Lemma slice_iad_ok {P} sh0 (l : list (list Z * P)) nix :
  positive sh0 -> normal_index nix sh0 -> n_shape nix sh0 <> [] ->
  Forall (fun e => in_box (fst e) sh0) l -> NoDup (map fst l) ->
  exists L, slice_iad sh0 (Ok l) (n_shape nix sh0) (n_strides nix (make_strides sh0))
                      (n_offset nix sh0 (make_strides sh0)) = Ok L
    /\ (forall j p, In (j, p) L <-> in_box j (n_shape nix sh0) /\ In (n_source nix sh0 j, p) l)
    /\ NoDup (map fst L).
Proof.
  intros Hp Hn Hne Hf Hnd. unfold slice_iad.
  pose proof (sliced_slice _ _ _ nix (sliced_contiguous sh0 Hp) Hp Hn) as Hs.
  destruct (solver_data _ _ _ Hs Hne) as (sd & Es & Hsd). rewrite Es. cbn [bind].
  destruct (slice_iad_loop_ok sh0 _ _ (n_offset nix sh0 (make_strides sh0)) sd l Hsd Hf) as (L & EL & HL & HN).
  exists L. split; [exact EL|]. split; [|now apply HN].
  intros j p. rewrite HL. split.
  - intros (ix & Hin & Hj & Hz). split; [exact Hj|].
    assert (n_source nix sh0 j = ix) as ->; [|exact Hin].
    apply (ravel_inj _ _ sh0).
    + now apply n_source_in_box.
    + rewrite Forall_forall in Hf. exact (Hf _ Hin).
    + rewrite <- (n_offset_dot nix sh0 (make_strides sh0) j); auto; [lia|apply make_strides_length].
  - intros [Hj Hin]. exists (n_source nix sh0 j). split; [exact Hin|]. split; [exact Hj|].
    rewrite <- (n_offset_dot nix sh0 (make_strides sh0) j); auto; [lia|apply make_strides_length].
Qed.

(** * The entries of a slice *)
Definition sliced_entries (E : list (list Z * pyval)) (L : list (list Z * Z)) : list (list Z * pyval) :=
  map (fun e => (fst e, snd (nth (Z.to_nat (snd e)) E ([], VNone)))) L.

Lemma fst_sliced_entries E L : map fst (sliced_entries E L) = map fst L.
Proof. unfold sliced_entries. rewrite map_map. reflexivity. Qed.

Lemma numbered_fst E : map fst (numbered E) = map fst E.
Proof.
  unfold numbered. rewrite map_map. cbn [fst].
  rewrite <- (map_map (fun k => nth (Z.to_nat k) E ([], VNone)) fst). now rewrite map_nth_zseq.
Qed.

Lemma numbered_in_box sh E : ordered sh E -> Forall (fun e => in_box (fst e) sh) (numbered E).
Proof.
  intros [H _]. apply Forall_forall. intros [j p] Hin. apply In_numbered in Hin.
  destruct Hin as [Hp ->]. cbn [fst]. rewrite Forall_forall in H. apply H. apply nth_In.
  unfold zlen in Hp. lia.
Qed.

(** [E'] holds the entries of [E] selected by the index. *)
Definition selects (E E' : list (list Z * pyval)) (sh' : list Z) (src : list Z -> list Z) : Prop :=
  forall j v, In (j, v) E' <-> in_box j sh' /\ In (src j, v) E.

Lemma selects_lookup sh E sh' E' src u j : ordered sh E -> ordered sh' E' -> selects E E' sh' src ->
  in_box j sh' -> lookup E' u j = lookup E u (src j).
Proof.
  intros Ho Ho' Hs Hj. destruct (epos E (src j)) as [k|] eqn:Ek.
  - assert (Hin : In (src j, snd (nth k E ([], VNone))) E).
    { apply epos_some in Ek. destruct Ek as [Hk E1]. rewrite <- E1, <- surjective_pairing. now apply nth_In. }
    rewrite (In_lookup E u (src j) _ (ordered_NoDup _ _ Ho) Hin).
    apply In_lookup; [eapply ordered_NoDup; eassumption|]. now apply Hs.
  - rewrite (lookup_absent E u (src j)) by now apply epos_none.
    apply lookup_absent. intros Hin. apply in_map_iff in Hin. destruct Hin as ([j' v] & Ej & Hin).
    cbn [fst] in Ej. subst j'. apply Hs in Hin. destruct Hin as [_ Hin].
    apply (epos_none _ _ Ek). now apply (in_map fst) in Hin.
Qed.

Lemma slice_entries h d E sh nix : ordered sh E -> holds h d (map snd E) ->
  positive sh -> normal_index nix sh -> n_shape nix sh <> [] ->
  exists L, slice_iad sh (Ok (numbered E)) (n_shape nix sh) (n_strides nix (make_strides sh))
                      (n_offset nix sh (make_strides sh)) = Ok L
    /\ exists E', ordered (n_shape nix sh) E' /\ selects E E' (n_shape nix sh) (n_source nix sh)
       /\ map fst (sorted_pairs L) = map fst E'
       /\ zlen (sorted_pairs L) = zlen E'
       /\ slice_values h d (sorted_pairs L) = Ok (map snd E').
Proof.
  intros Ho Hd Hp Hn Hne.
  destruct (slice_iad_ok sh (numbered E) nix Hp Hn Hne (numbered_in_box _ _ Ho)) as (L & EL & HL & Hnd).
  { rewrite numbered_fst. eapply ordered_NoDup; eassumption. }
  exists L. split; [exact EL|].
  exists (sliced_entries E (sorted_pairs L)).
  pose proof (sorted_pairs_perm L) as Hperm.
  assert (HL' : forall j p, In (j, p) (sorted_pairs L) <->
            in_box j (n_shape nix sh) /\ In (n_source nix sh j, p) (numbered E)).
  { intros j p. rewrite <- HL. split; apply Permutation_in; [exact Hperm|now apply Permutation_sym]. }
  split; [|split; [|split; [|split]]].
  - split.
    + apply Forall_forall. intros e He. unfold sliced_entries in He. apply in_map_iff in He.
      destruct He as ([j p] & <- & Hin). cbn [fst]. now apply HL' in Hin.
    + rewrite fst_sliced_entries. apply sorted_map_fst.
      apply (sorted_pairs_sorted (length (n_shape nix sh))); [|exact Hnd].
      apply Forall_forall. intros [j p] Hin. cbn [fst]. apply in_box_len. now apply HL in Hin.
  - intros j v. unfold sliced_entries. rewrite in_map_iff. split.
    + intros ([j' p] & Ee & Hin). cbn [fst snd] in Ee. injection Ee as -> <-. apply HL' in Hin.
      destruct Hin as [Hj Hin]. split; [exact Hj|]. apply In_numbered in Hin. destruct Hin as [Hpp ->].
      rewrite <- surjective_pairing. apply nth_In. unfold zlen in Hpp. lia.
    + intros [Hj Hin]. apply In_nth with (d := ([], VNone)) in Hin. destruct Hin as (k & Hk & Ek).
      exists (j, Z.of_nat k). cbn [fst snd]. rewrite Nat2Z.id, Ek. split; [reflexivity|].
      apply HL'. split; [exact Hj|]. apply In_numbered. split; [unfold zlen; lia|].
      rewrite Nat2Z.id, Ek. reflexivity.
  - now rewrite fst_sliced_entries.
  - unfold sliced_entries. now rewrite zlen_map.
  - unfold slice_values. rewrite mapM_ok with (g := fun p => snd (nth (Z.to_nat (snd p)) E ([], VNone))).
    + unfold sliced_entries. rewrite map_map. reflexivity.
    + intros [j p] Hin. apply HL' in Hin. destruct Hin as [_ Hin]. apply In_numbered in Hin.
      destruct Hin as [Hpp _]. cbn [snd]. rewrite (buf_get_ok _ _ _ _ Hd) by now rewrite zlen_map.
      now rewrite nth_map_snd.
Qed.

(** * get_slice *)
Definition fresh (h : heap) (s : storage) : Prop := forall a, In a (addrs s) -> (length h <= a)%nat.

Lemma data_buffer_holds h s E d : entries h s E -> data_buffer s = Ok d -> holds h d (map snd E).
Proof.
  intros HE Hd. destruct (entries_data h s E HE) as (d' & Ed & Hh & _).
  rewrite Hd in Ed. injection Ed as <-. exact Hh.
Qed.

Lemma coo_get_slice_ok h s d E nix : entries h s E -> data_buffer s = Ok d -> positive (shape_of s) ->
  normal_index nix (shape_of s) -> n_shape nix (shape_of s) <> [] ->
  let sh := shape_of s in
  exists ind d' h' E',
    coo_get_slice h s d (n_shape nix sh) (n_strides nix (make_strides sh))
                  (n_offset nix sh (make_strides sh)) = Ok (SCOO (n_shape nix sh) ind d', h')
    /\ extends h h' /\ entries h' (SCOO (n_shape nix sh) ind d') E'
    /\ selects E E' (n_shape nix sh) (n_source nix sh)
    /\ bunspec d' = bunspec d /\ fresh h (SCOO (n_shape nix sh) ind d').
Proof.
  intros HE Hd Hp Hn Hne sh.
  pose proof (entries_ordered h s E HE) as Ho. fold sh in Ho, Hp, Hn, Hne |- *.
  pose proof (data_buffer_holds h s E d HE Hd) as Hh.
  unfold coo_get_slice. rewrite (sparse_iad_ok h s E HE Hp). fold sh.
  destruct (slice_entries h d E sh nix Ho Hh Hp Hn Hne) as (L & EL & E' & Ho' & Hsel & Ef & Elen & Ev).
  rewrite EL. cbn [bind]. rewrite Ev. cbn [bind]. rewrite Ef. rewrite columns_column.
  set (sh' := n_shape nix sh) in *.
  assert (Ec0 : exists c, pyget (map (fun k => column k E') (seq 0 (length sh'))) 0 = Ok c /\ zlen c = zlen E').
  { destruct sh' as [|n' sh'']; [congruence|]. cbn [length seq map].
    exists (column 0 E'). split; [reflexivity|]. unfold column. apply zlen_map. }
  destruct Ec0 as (c0 & Ec0 & Hc0). rewrite Ec0. cbn [bind]. rewrite Hc0.
  set (cols := concat (map (fun k => column k E') (seq 0 (length sh')))).
  cbn [alloc].
  assert (Hcl : zlen cols = zlen sh' * zlen E').
  { unfold cols, zlen. rewrite length_concat_columns. lia. }
  unfold mk_buffer. rewrite (cell_ok _ _ _ (nth_error_new h (map VInt cols))). cbn [bind].
  unfold assert_ at 1. rewrite zlen_map, Hcl.
  replace (0 + product [zlen sh'; zlen E'] <=? zlen sh' * zlen E') with true by (cbn [product]; lia). cbn [bind].
  unfold mk_strided, assert_ at 1.
  replace (zlen [zlen sh'; zlen E'] =? zlen (make_strides [zlen sh'; zlen E'])) with true by reflexivity.
  cbn [bind]. rewrite new_buffer_ok. cbn [bind]. rewrite zlen_map.
  unfold mk_coo. cbn [sshape]. change (pyget [zlen sh'; zlen E'] 1) with (@Ok Z (zlen E')). cbn [bind bsize].
  unfold assert_. rewrite Z.eqb_refl. cbn [bind].
  eexists _, _, _, E'. split; [reflexivity|].
  split; [eapply extends_trans; apply extends_alloc|].
  split; [|split; [exact Hsel|split; [reflexivity|]]].
  - cbn [entries]. assert (Hnn : nonneg sh') by now apply n_shape_nonneg.
    split; [exact Hnn|]. split; [exact Hne|]. split; [exact Ho'|].
    split; [rewrite <- (zlen_map snd E'); apply holds_new|].
    cbn [sshape sstrides sdata]. split; [reflexivity|]. split; [cbn [make_strides product]; f_equal; lia|].
    split.
    + eapply holds_extends; [apply extends_alloc|]. fold cols.
      replace (product [zlen sh'; zlen E']) with (zlen (map VInt cols)) by (rewrite zlen_map; cbn [product]; lia).
      apply holds_new.
    + cbn [baddr bunspec]. rewrite app_length. cbn [length]. split; [lia|reflexivity].
  - intros a [<-|[<-|[]]]; cbn [data_addr baddr sdata]; [rewrite app_length|]; lia.
Qed.

Lemma flatcoo_get_slice_ok h s d E nix : entries h s E -> data_buffer s = Ok d -> positive (shape_of s) ->
  normal_index nix (shape_of s) -> n_shape nix (shape_of s) <> [] ->
  let sh := shape_of s in
  exists f d' h' E',
    flatcoo_get_slice h s d (n_shape nix sh) (n_strides nix (make_strides sh))
                  (n_offset nix sh (make_strides sh)) = Ok (SFlatCOO (n_shape nix sh) f d', h')
    /\ extends h h' /\ entries h' (SFlatCOO (n_shape nix sh) f d') E'
    /\ selects E E' (n_shape nix sh) (n_source nix sh)
    /\ bunspec d' = bunspec d /\ fresh h (SFlatCOO (n_shape nix sh) f d').
Proof.
  intros HE Hd Hp Hn Hne sh.
  pose proof (entries_ordered h s E HE) as Ho. fold sh in Ho, Hp, Hn, Hne |- *.
  pose proof (data_buffer_holds h s E d HE Hd) as Hh.
  unfold flatcoo_get_slice. rewrite (sparse_iad_ok h s E HE Hp). fold sh.
  destruct (slice_entries h d E sh nix Ho Hh Hp Hn Hne) as (L & EL & E' & Ho' & Hsel & Ef & Elen & Ev).
  rewrite EL. cbn [bind]. set (sh' := n_shape nix sh) in *.
  assert (Hpos : mapM (fun p => get_position (fst p) sh' (make_strides sh')) (sorted_pairs L)
                 = Ok (map (fun e => zdot (fst e) (make_strides sh')) E')).
  { rewrite mapM_positions.
    - f_equal. rewrite <- !(map_map fst (fun i => zdot i (make_strides sh'))). now rewrite Ef.
    - destruct Ho' as [Hb _]. clear - Hb Ef. apply Forall_forall. intros e He.
      apply (in_map fst) in He. rewrite Ef in He. apply in_map_iff in He. destruct He as (e' & <- & He').
      rewrite Forall_forall in Hb. auto. }
  rewrite Hpos. cbn [bind]. rewrite Ev. cbn [bind]. rewrite !new_buffer_ok. cbn [bind].
  rewrite new_buffer_ok. cbn [bind].
  assert (Hnn : nonneg sh') by now apply n_shape_nonneg.
  destruct (flatcoo_alloc sh' E' (bunspec d) h Hnn Hne Ho') as [E1 E2].
  rewrite !zlen_map. replace (length (h ++ [map snd E'])) with (S (length h)) by (rewrite app_length; cbn; lia).
  rewrite E1. cbn [bind]. eexists _, _, _, E'. split; [reflexivity|].
  split; [eapply extends_trans; apply extends_alloc|]. split; [exact E2|]. split; [exact Hsel|].
  split; [reflexivity|]. intros a [<-|[<-|[]]]; cbn [data_addr baddr]; lia.
Qed.

Lemma ordered_columns n m E : ordered [n; m] E ->
  Forall (fun x => 0 <= x < n) (column 0 E) /\ Forall (fun x => 0 <= x < m) (column 1 E).
Proof.
  intros [H _]. split; apply Forall_forall; intros x Hx; unfold column in Hx; apply in_map_iff in Hx;
    destruct Hx as (e & <- & He); rewrite Forall_forall in H; specialize (H e He);
    destruct (in_box_2 _ _ _ H) as (a & b & -> & Ha & Hb); assumption.
Qed.

Lemma map_nth_fst k (l : list (list Z * Z)) (E : list (list Z * pyval)) :
  map fst l = map fst E -> map (fun p => nth k (fst p) 0) l = column k E.
Proof.
  intros H. unfold column. rewrite <- !(map_map fst (fun i => nth k i 0)). now rewrite H.
Qed.

Definition crow_of (n : Z) (E : list (list Z * pyval)) : list Z :=
  map (fun r => zlen (filter (fun x => x <? r) (column 0 E))) (zseq (n + 1)).

Lemma compress_column n m E : nonneg [n; m] -> ordered [n; m] E ->
  compress_indices (column 0 E) n = Ok (crow_of n E).
Proof.
  intros Hn Ho. destruct (ordered_columns n m E Ho) as [H0 _].
  rewrite compress_indices_spec.
  - unfold crow_of. f_equal. apply map_ext. intros r. apply count_lt_length.
  - apply StronglySorted_Sorted. eapply column0_sorted; eassumption.
  - now inversion Hn.
  - exact H0.
Qed.

Lemma crow_length n E : 0 <= n -> zlen (crow_of n E) = n + 1.
Proof. intros H. unfold crow_of. rewrite zlen_map, zseq_length. lia. Qed.

Lemma csr_entries h n m crow col d E : nonneg [n; m] -> ordered [n; m] E ->
  holds h d (map snd E) -> holds h crow (map VInt (crow_of n E)) -> holds h col (map VInt (column 1 E)) ->
  baddr crow <> baddr d -> baddr col <> baddr d -> bunspec crow = VNone -> bunspec col = VNone ->
  entries h (SCSR [n; m] crow col d) E /\ mk_csr [n; m] crow col d = Ok (SCSR [n; m] crow col d).
Proof.
  intros Hn Ho Hd Hr Hc H1 H2 H3 H4. split.
  - cbn [entries]. unfold crow_of in Hr. rewrite map_map in Hr. cbn [nth]. auto 12.
  - unfold mk_csr, assert_. change (zlen [n; m] =? 2) with true. cbn [bind].
    change (pyget [n; m] 0) with (@Ok Z n). cbn [bind].
    destruct Hd as (? & _ & _ & Ed & _). destruct Hr as (? & _ & _ & Er & _). destruct Hc as (? & _ & _ & Ec & _).
    rewrite zlen_map in Ed. rewrite zlen_map in Er. rewrite zlen_map in Ec. rewrite crow_length in Er by now inversion Hn.
    unfold column in Ec. rewrite zlen_map in Ec. rewrite Er, Ed, Ec, !Z.eqb_refl. reflexivity.
Qed.

Lemma length_app1 (h : heap) l : length (h ++ [l]) = S (length h).
Proof. rewrite app_length. cbn. lia. Qed.

(** The entries with a value different from the unspecified one are kept, the
    others may be dropped. *)
Definition wselects (u : pyval) (E E' : list (list Z * pyval)) (sh' : list Z) (src : list Z -> list Z) : Prop :=
  (forall j v, In (j, v) E' -> in_box j sh' /\ In (src j, v) E)
  /\ (forall j v, in_box j sh' -> In (src j, v) E -> v <> u -> In (j, v) E').

Lemma selects_wselects u E E' sh' src : selects E E' sh' src -> wselects u E E' sh' src.
Proof. intros H. split; intros j v; [apply H|]. intros Hj Hin _. now apply H. Qed.

Lemma wselects_lookup u sh E sh' E' src j : ordered sh E -> ordered sh' E' -> wselects u E E' sh' src ->
  in_box j sh' -> lookup E' u j = lookup E u (src j).
Proof.
  intros Ho Ho' [Hs1 Hs2] Hj. pose proof (ordered_NoDup _ _ Ho) as N. pose proof (ordered_NoDup _ _ Ho') as N'.
  destruct (epos E' j) as [k|] eqn:Ek.
  - assert (Hin : In (j, snd (nth k E' ([], VNone))) E').
    { apply epos_some in Ek. destruct Ek as [Hk E1]. rewrite <- E1 at 1. rewrite <- surjective_pairing. now apply nth_In. }
    rewrite (In_lookup E' u j _ N' Hin). symmetry. apply In_lookup; [exact N|]. now apply Hs1.
  - rewrite (lookup_absent E' u j) by now apply epos_none. symmetry.
    destruct (epos E (src j)) as [k|] eqn:Ek2.
    + assert (Hin : In (src j, snd (nth k E ([], VNone))) E).
      { apply epos_some in Ek2. destruct Ek2 as [Hk E1]. rewrite <- E1, <- surjective_pairing. now apply nth_In. }
      rewrite (In_lookup E u (src j) _ N Hin).
      destruct (veqb (snd (nth k E ([], VNone))) u) eqn:Ev; [now apply veqb_eq in Ev|].
      exfalso. apply (epos_none _ _ Ek). apply (in_map fst) with (x := (j, snd (nth k E ([], VNone)))).
      apply Hs2; auto. intros Eq. rewrite Eq, veqb_refl in Ev. discriminate.
    + apply lookup_absent. now apply epos_none.
Qed.

Lemma entries_of_lookup_In sh E u : ordered sh E -> forall i v,
  In (i, v) (entries_of sh u (lookup E u)) <-> In (i, v) E /\ v <> u.
Proof.
  intros Ho i v. unfold entries_of, specified. rewrite filter_In. cbn [snd]. rewrite in_map_iff. split.
  - intros [(k & Ek & Hk) Hv]. injection Ek as -> Ev.
    assert (Hne : v <> u) by (intros ->; rewrite veqb_refl in Hv; discriminate).
    split; [|exact Hne]. subst v. destruct (epos E i) as [p|] eqn:Ep.
    + rewrite lookup_epos, Ep. apply epos_some in Ep. destruct Ep as [Hp E1].
      rewrite <- E1 at 1. rewrite <- surjective_pairing. now apply nth_In.
    + exfalso. apply Hne. apply lookup_absent. now apply epos_none.
  - intros [Hin Hne]. split.
    + exists i. split.
      * f_equal. apply In_lookup; [eapply ordered_NoDup; eassumption|assumption].
      * apply In_cart. destruct Ho as [Hb _]. rewrite Forall_forall in Hb. exact (Hb _ Hin).
    + destruct (veqb v u) eqn:E1; [|reflexivity]. now apply veqb_eq in E1.
Qed.

Lemma conv_value_id u v : conv_value u u v = v.
Proof. unfold conv_value. destruct (veqb v u) eqn:E; [|reflexivity]. symmetry. now apply veqb_eq. Qed.

Lemma fresh_extends h h' s : extends h h' -> fresh h' s -> fresh h s.
Proof. intros He Hf a Ha. apply extends_length in He. specialize (Hf a Ha). lia. Qed.

Lemma csr_get_slice_ok h sh crow col d E nix : entries h (SCSR sh crow col d) E -> positive sh ->
  normal_index nix sh -> n_shape nix sh <> [] ->
  exists s' h' E',
    csr_get_slice h (SCSR sh crow col d) d (n_shape nix sh) (n_strides nix (make_strides sh))
                  (n_offset nix sh (make_strides sh)) = Ok (s', h')
    /\ shape_of s' = n_shape nix sh
    /\ extends h h' /\ entries h' s' E'
    /\ wselects (bunspec d) E E' (n_shape nix sh) (n_source nix sh)
    /\ unspecified_of s' = bunspec d /\ fresh h s'
    /\ (length (n_shape nix sh) = 2%nat -> exists cb cl d', s' = SCSR (n_shape nix sh) cb cl d')
    /\ (length (n_shape nix sh) = 1%nat -> exists i d', s' = SCOO (n_shape nix sh) i d')
    /\ (length (n_shape nix sh) = 2%nat -> selects E E' (n_shape nix sh) (n_source nix sh))
    /\ (length (n_shape nix sh) = 1%nat -> forall j v, In (j, v) E' -> v <> bunspec d).
Proof.
  intros HE Hp Hn Hne. unfold csr_get_slice. cbn [unspecified_of shape_of].
  pose proof (entries_ordered _ _ _ HE) as Ho. cbn [shape_of] in Ho.
  destruct (zlen (n_shape nix sh) =? 1) eqn:E1.
  - pose proof HE as (Hnn & Hl2 & _).
    destruct (coo_build_ok (flat_read h (SCSR sh crow col d)) (lookup E (bunspec d)) sh (bunspec d) (bunspec d) h)
      as (ind & h1 & Eb & Hx & Ha & He).
    { exact Hnn. } { destruct sh; [discriminate|discriminate]. }
    { intros i Hi. apply (flat_read_ok h (SCSR sh crow col d)); assumption. }
    rewrite Eb. cbn [bind data_buffer].
    set (d0 := Buf _ 0 (length h) (bunspec d)) in *. set (E0 := entries_of _ _ _) in *.
    destruct (coo_get_slice_ok h1 (SCOO sh ind d0) d0 E0 nix He eq_refl Hp Hn Hne)
      as (ind' & d' & h' & E' & Es & Hx' & He' & Hsel & Hu & Hf).
    cbn [shape_of] in *. rewrite Es. eexists _, _, E'. split; [reflexivity|]. split; [reflexivity|].
    split; [eapply extends_trans; eassumption|]. split; [exact He'|].
    assert (HE0 : forall i v, In (i, v) E0 <-> In (i, v) E /\ v <> bunspec d).
    { intros i v. rewrite <- (entries_of_lookup_In sh E (bunspec d) Ho).
      replace E0 with (entries_of sh (bunspec d) (lookup E (bunspec d))); [reflexivity|].
      unfold E0, entries_of. f_equal. apply map_ext. intros k. now rewrite conv_value_id. }
    split.
    { split.
      - intros j v Hin. apply Hsel in Hin. destruct Hin as [Hj Hin]. apply HE0 in Hin. tauto.
      - intros j v Hj Hin Hv. apply Hsel. split; [exact Hj|]. now apply HE0. }
    split; [exact Hu|]. split; [eapply fresh_extends; eassumption|].
    split; [intros H2; unfold zlen in E1; lia|]. split; [eauto|].
    split; [intros H2; unfold zlen in E1; lia|].
    intros _ j v Hin. apply Hsel in Hin. destruct Hin as [_ Hin]. now apply HE0 in Hin.
  - pose proof HE as (Hnn & Hl2 & _ & Hd & _).
    assert (Hl : length (n_shape nix sh) = 2%nat).
    { assert (length (n_shape nix sh) <= length sh)%nat.
      { clear - Hn. induction Hn as [|i n nix sh Hi H IH]; cbn [n_shape length]; [lia|].
        destruct i; cbn [length]; lia. }
      destruct (n_shape nix sh) as [|? [|? ?]] eqn:En; [congruence| |cbn in *; lia].
      cbn in E1. discriminate. }
    unfold assert_. replace (zlen (n_shape nix sh) =? 2) with true by (unfold zlen; lia). cbn [bind].
    rewrite (sparse_iad_ok h (SCSR sh crow col d) E HE Hp).
    destruct (slice_entries h d E sh nix Ho Hd Hp Hn Hne) as (L & EL & E' & Ho' & Hsel & Ef & Elen & Ev).
    rewrite EL. cbn [bind]. rewrite Ev. cbn [bind]. rewrite new_buffer_ok. cbn [bind].
    pose proof (n_shape_nonneg nix sh Hp Hn) as Hnn'.
    destruct (n_shape nix sh) as [|n' [|m' [|? ?]]]; try discriminate.
    change (pyget [n'; m'] 0) with (@Ok Z n'). cbn [bind].
    rewrite (map_nth_fst 0 _ E' Ef), (map_nth_fst 1 _ E' Ef).
    rewrite (compress_column n' m') by assumption. cbn [bind].
    rewrite !buffer_of_ints. cbn [bind]. rewrite buffer_of_ints. cbn [bind].
    rewrite !length_app1, zlen_map.
    set (h1 := h ++ [map snd E']). set (h2 := h1 ++ [map VInt (crow_of n' E')]).
    set (h3 := h2 ++ [map VInt (column 1 E')]).
    set (cb := Buf (zlen (crow_of n' E')) 0 (S (length h)) VNone).
    set (cl := Buf (zlen (column 1 E')) 0 (S (S (length h))) VNone).
    set (db := Buf (zlen E') 0 (length h) (bunspec d)).
    destruct (csr_entries h3 n' m' cb cl db E') as [He' Emk]; auto.
    { unfold db. rewrite <- (zlen_map snd E').
      eapply holds_extends; [|apply holds_new]. eapply extends_trans; apply extends_alloc. }
    { unfold cb. rewrite <- (length_app1 h (map snd E')). fold h1. rewrite <- (zlen_map VInt).
      eapply holds_extends; [apply extends_alloc|]. apply holds_new. }
    { unfold cl. rewrite <- (length_app1 h (map snd E')). fold h1.
      rewrite <- (length_app1 h1 (map VInt (crow_of n' E'))). fold h2. rewrite <- (zlen_map VInt).
      apply holds_new. }
    { cbn [baddr cb db]. lia. } { cbn [baddr cl db]. lia. }
    rewrite Emk. cbn [bind]. exists (SCSR [n'; m'] cb cl db), h3, E'. split; [reflexivity|]. split; [reflexivity|].
    split. { eapply extends_trans; [|apply extends_alloc]. eapply extends_trans; apply extends_alloc. }
    split; [exact He'|]. split; [now apply selects_wselects|]. split; [reflexivity|].
    split. { intros a [<-|[<-|[<-|[]]]]; cbn [data_addr baddr cb cl db]; lia. }
    split; [eauto|]. split; [discriminate|]. split; [intros _; exact Hsel|discriminate].
Qed.

Definition same_kind (s s' : storage) : Prop :=
  match s, s' with
  | SCOO _ _ _, SCOO _ _ _ | SFlatCOO _ _ _, SFlatCOO _ _ _ => True
  | SCSR _ _ _ _, SCSR sh _ _ _ => length sh = 2%nat
  | SCSR _ _ _ _, SCOO sh _ _ => length sh = 1%nat
  | _, _ => False
  end.

(** Which entries a slice keeps. *)
Definition slice_keeps (s s' : storage) (E E' : list (list Z * pyval)) (sh' : list Z) (src : list Z -> list Z) : Prop :=
  match s, s' with
  | SCSR _ _ _ _, SCOO _ _ _ => forall j v, In (j, v) E' -> v <> unspecified_of s
  | _, _ => selects E E' sh' src
  end.

Lemma getitem_sparse_slice_full h s E ix : entries h s E -> positive (shape_of s) ->
  ok_index ix (shape_of s) -> slice_shape ix (shape_of s) <> [] ->
  exists s' h' E', getitem h s ix = Ok (ISto s', h')
    /\ shape_of s' = slice_shape ix (shape_of s) /\ unspecified_of s' = unspecified_of s
    /\ extends h h' /\ fresh h s' /\ entries h' s' E'
    /\ wselects (unspecified_of s) E E' (slice_shape ix (shape_of s)) (source_index ix (shape_of s))
    /\ same_kind s s'
    /\ slice_keeps s s' E E' (slice_shape ix (shape_of s)) (source_index ix (shape_of s)).
Proof.
  intros HE Hp Hok Hne. set (sh := shape_of s) in *. pose proof Hok as [Hitems _].
  set (nix := norm_items (index_items ix) sh).
  assert (Hn : normal_index nix sh) by now apply norm_items_normal.
  assert (Es : n_shape nix sh = slice_shape ix sh) by now apply norm_items_shape.
  assert (Hsrc : forall u E', wselects u E E' (n_shape nix sh) (n_source nix sh) ->
            wselects u E E' (slice_shape ix sh) (source_index ix sh)).
  { intros u E' [W1 W2]. rewrite Es in *. split.
    - intros j v Hin. apply W1 in Hin. destruct Hin as [Hj Hin]. split; [exact Hj|].
      unfold source_index. now rewrite <- norm_items_source.
    - intros j v Hj Hin Hv. apply W2; auto. unfold nix. now rewrite norm_items_source. }
  assert (Hsel' : forall E', selects E E' (n_shape nix sh) (n_source nix sh) ->
            selects E E' (slice_shape ix sh) (source_index ix sh)).
  { intros E' W j v. rewrite (W j v), Es. split; intros [Hj Hin]; (split; [exact Hj|]); revert Hin;
      unfold source_index, nix; rewrite norm_items_source by assumption; auto. }
  assert (Hel : is_element_index nix sh = false).
  { destruct (is_element_index nix sh) eqn:E1; [|reflexivity].
    apply element_n_shape in E1; [congruence|assumption]. }
  assert (Hne' : n_shape nix sh <> []) by congruence.
  assert (G : forall st, st = make_strides sh ->
     normalize_index ix sh = Ok nix /\ index_strided nix sh st 0
       = Ok (n_shape nix sh, n_strides nix (make_strides sh), n_offset nix sh (make_strides sh))).
  { intros st ->. split; [now apply normalize_index_ok|].
    rewrite index_strided_ok; auto. apply make_strides_length. }
  destruct s as [|t|sh0 ind d|sh0 fi d|sh0 crow col d| |]; try (cbn in HE; tauto);
    cbn [getitem shape_of strides_of data_buffer unspecified_of] in *; fold sh;
    destruct (G _ eq_refl) as [G1 G2]; rewrite G1; cbn [bind]; rewrite Hel, G2; cbn [bind].
  - destruct (coo_get_slice_ok h (SCOO sh0 ind d) d E nix HE eq_refl Hp Hn Hne')
      as (ind' & d' & h' & E' & Eg & Hx & He & Hsel & Hu & Hf). cbn [shape_of] in *. fold sh in Eg.
    rewrite Eg. cbn [bind]. eexists _, _, E'. split; [reflexivity|]. cbn [shape_of]. fold sh.
    split; [exact Es|]. split; [exact Hu|]. split; [exact Hx|]. split; [exact Hf|]. split; [exact He|].
    split; [apply Hsrc; now apply selects_wselects|]. split; [exact I|]. now apply Hsel'.
  - destruct (flatcoo_get_slice_ok h (SFlatCOO sh0 fi d) d E nix HE eq_refl Hp Hn Hne')
      as (ind' & d' & h' & E' & Eg & Hx & He & Hsel & Hu & Hf). cbn [shape_of] in *. fold sh in Eg.
    rewrite Eg. cbn [bind]. eexists _, _, E'. split; [reflexivity|]. cbn [shape_of]. fold sh.
    split; [exact Es|]. split; [exact Hu|]. split; [exact Hx|]. split; [exact Hf|]. split; [exact He|].
    split; [apply Hsrc; now apply selects_wselects|]. split; [exact I|]. now apply Hsel'.
  - destruct (csr_get_slice_ok h sh0 crow col d E nix HE Hp Hn Hne')
      as (s' & h' & E' & Eg & Hsh & Hx & He & Hsel & Hu & Hf & H2 & H1 & H3 & H4). fold sh in Eg, Hsh, Hsel, H1, H2, H3, H4.
    rewrite Eg. cbn [bind]. eexists _, _, E'. split; [reflexivity|].
    split; [congruence|]. split; [exact Hu|]. split; [exact Hx|]. split; [exact Hf|]. split; [exact He|].
    split; [now apply Hsrc|]. clear - HE Hne' Hn H1 H2 H3 H4 Hsel'.
    assert (length (n_shape nix sh) <= length sh)%nat.
    { clear - Hn. induction Hn as [|i n nix sh Hi H IH]; cbn [n_shape length]; [lia|].
      destruct i; cbn [length]; lia. }
    destruct HE as (_ & Hl & _). unfold sh in *. cbn [shape_of] in *.
    destruct (n_shape nix sh0) as [|a [|b [|? ?]]] eqn:En; cbn in *; try congruence; try lia.
    + destruct (H1 eq_refl) as (? & ? & ->). split; [reflexivity|]. exact (H4 eq_refl).
    + destruct (H2 eq_refl) as (? & ? & ? & ->). split; [reflexivity|]. exact (Hsel' _ (H3 eq_refl)).
Qed.

Lemma getitem_sparse_slice h s E ix : entries h s E -> positive (shape_of s) ->
  ok_index ix (shape_of s) -> slice_shape ix (shape_of s) <> [] ->
  exists s' h' E', getitem h s ix = Ok (ISto s', h')
    /\ shape_of s' = slice_shape ix (shape_of s) /\ unspecified_of s' = unspecified_of s
    /\ extends h h' /\ fresh h s' /\ entries h' s' E'
    /\ wselects (unspecified_of s) E E' (slice_shape ix (shape_of s)) (source_index ix (shape_of s))
    /\ same_kind s s'.
Proof.
  intros HE Hp Hok Hne. destruct (getitem_sparse_slice_full h s E ix HE Hp Hok Hne) as (s' & h' & E' & H).
  exists s', h', E'. tauto.
Qed.

(** C120: copy(unspecified=u) while other threads run. *)
From Verif Require Import Py SliceTools Basics Storage Spec SliceFacts IndexFacts CompressFacts ReduceFacts SolverFacts
  SolveFacts Repr ReprFacts ViewFacts BuildFacts SparseFacts ConvFacts FromFacts MapFacts DMFacts ReadFacts WriteFacts RefineFacts EqFacts ChainFacts
  AliasFacts PropRead PropWrite PropLoop Threads ThreadFacts PropThreads PropRaces PropFlow Copies PropCopies PropSnap Iterate PropMoment Recopy.
From Coq Require Import List Sorted.
Import ListNotations.

(** * The new array *)
Lemma combine_fst {X Y} : forall (l : list X) (m : list Y), length m = length l -> map fst (combine l m) = l.
Proof. induction l as [|x l IH]; intros [|y m] L; cbn in *; try lia; [reflexivity|]. now rewrite IH by lia. Qed.
Lemma combine_snd {X Y} : forall (l : list X) (m : list Y), length m = length l -> map snd (combine l m) = m.
Proof. induction l as [|x l IH]; intros [|y m] L; cbn in *; try lia; [reflexivity|]. now rewrite IH by lia. Qed.

Lemma strided_recopy_ok h t u xs : nonneg (sshape t) -> length xs = length (cart (sshape t)) ->
  strided_recopy_of t u xs h
  = Ok (Str (sshape t) (make_strides (sshape t)) (Buf (product (sshape t)) 0 (length h) u),
        h ++ [map (conv_value (bunspec (sdata t)) u) xs]).
Proof.
  intros Hn Hx. unfold strided_recopy_of. set (sh := sshape t) in *. set (su := bunspec (sdata t)).
  pose proof (BuildFacts.cart_length sh Hn) as Hcl.
  set (n := Z.to_nat (product sh)).
  set (vs := map (conv_value su u) xs).
  assert (Hvs : length vs = n) by (unfold vs, n; rewrite map_length; lia).
  cbn [alloc]. unfold mk_buffer. rewrite (cell_ok _ _ _ (nth_error_new h _)). cbn [bind].
  unfold assert_ at 1. replace (0 + product sh <=? zlen (repeat u n)) with true
    by (unfold zlen, n; rewrite repeat_length; lia). cbn [bind].
  unfold mk_strided, assert_. replace (zlen sh =? zlen (make_strides sh)) with true
    by (unfold zlen; rewrite make_strides_length; lia). cbn [bind].
  set (t' := Str sh (make_strides sh) (Buf (product sh) 0 (length h) u)).
  match goal with |- bind (?go0 _ _) _ = _ => set (go := go0) end.
  assert (G : forall k, (k <= n)%nat ->
    go (skipn (n - k) (combine (cart sh) xs)) (h ++ [firstn (n - k) vs ++ repeat u k])
    = Ok (h ++ [vs])).
  { assert (Hcm : length (combine (cart sh) xs) = n) by (rewrite combine_length; unfold n; lia).
    induction k as [|k IH]; intros Hk.
    - rewrite Nat.sub_0_r. rewrite skipn_all2 by lia. cbn [repeat go].
      rewrite app_nil_r, firstn_all2 by lia. reflexivity.
    - assert (Hlt : (n - S k < length (cart sh))%nat) by (unfold n in *; lia).
      assert (Esk : skipn (n - S k) (combine (cart sh) xs) = (nth (n - S k) (cart sh) [], nth (n - S k) xs VNone) :: skipn (n - k) (combine (cart sh) xs)).
      { replace (n - k)%nat with (S (n - S k)) by lia. rewrite <- (combine_nth (cart sh) xs) by lia. clear - Hlt Hcm Hk.
        assert (Hq : (n - S k < length (combine (cart sh) xs))%nat) by lia. revert Hq. clear.
        generalize (n - S k)%nat. generalize (combine (cart sh) xs). intros l. induction l as [|x l IHl]; intros p Hp; [cbn in Hp; lia|].
        destruct p; [reflexivity|]. cbn [skipn nth]. apply IHl. cbn in Hp. lia. }
      rewrite Esk. set (i := nth (n - S k) (cart sh) []) in *. set (x := nth (n - S k) xs VNone).
      assert (Hi : in_box i sh) by (apply In_cart; now apply nth_In).
      unfold go. fold go.
      assert (Hpos : spos t' i = Z.of_nat (n - S k)).
      { unfold spos, t'. cbn [sdata boff sstrides]. unfold i. now rewrite cart_position. }
      rewrite (strided_set_elem_ok _ t' (firstn (n - S k) vs ++ repeat u (S k))).
      + cbn [bind]. rewrite Hpos, Nat2Z.id. unfold t' at 1. cbn [sdata baddr]. rewrite set_nth_new.
        rewrite set_nth_app by (rewrite firstn_length; lia). cbn [repeat set_nth].
        rewrite <- (IH ltac:(lia)). f_equal. f_equal. f_equal.
        replace (n - k)%nat with (S (n - S k)) by lia.
        assert (Ef : firstn (S (n - S k)) vs = firstn (n - S k) vs ++ [conv_value su u x]).
        { assert (Hlv : (n - S k < length vs)%nat) by lia.
          replace (conv_value su u x) with (nth (n - S k) vs (conv_value su u VNone)).
          - clear - Hlv. revert Hlv. generalize (n - S k)%nat. generalize (conv_value su u VNone).
            intros d p. revert p. induction vs as [|y l IHl]; intros p Hp; [cbn in Hp; lia|].
            destruct p; [reflexivity|]. cbn [firstn nth app]. f_equal. apply IHl. cbn in Hp. lia.
          - unfold vs. now rewrite (map_nth (conv_value su u)). }
        rewrite Ef, <- app_assoc. reflexivity.
      + unfold t'. cbn [sdata baddr]. apply nth_error_new.
      + unfold t'. cbn [sstrides sshape]. apply make_strides_length.
      + exact Hi.
      + rewrite Hpos. unfold zlen. rewrite app_length, firstn_length, repeat_length. lia. }
  specialize (G n (Nat.le_refl n)). rewrite Nat.sub_diag in G. cbn [skipn firstn app] in G.
  rewrite G. reflexivity.
Qed.

(** Entries that differ in the values only. *)
Lemma column_keys E F k : map fst F = map fst E -> column k F = column k E.
Proof. intros K. unfold column. rewrite <- (map_map fst (fun i => nth k i 0)), K. now rewrite map_map. Qed.

Lemma recopy_entries h s E xs u : entries h s E -> length xs = length E ->
  exists s' h', recopy_of s u xs h = Ok (s', h') /\ same_class s s' /\ shape_of s' = shape_of s /\ unspecified_of s' = u
    /\ extends h h' /\ (length h <= data_addr s')%nat /\ index_addrs s' = index_addrs s
    /\ entries h' s' (map_snd (conv_value (unspecified_of s) u) (combine (map fst E) xs)).
Proof.
  intros HE L. set (F := combine (map fst E) xs).
  assert (KF : map fst F = map fst E) by (apply combine_fst; rewrite map_length; lia).
  assert (SF : map snd F = xs) by (apply combine_snd; rewrite map_length; lia).
  assert (ZF : zlen F = zlen E) by (unfold zlen; rewrite <- (map_length fst F), KF, map_length; reflexivity).
  assert (ZX : zlen xs = zlen E) by (unfold zlen; lia).
  assert (OF : forall sh, ordered sh E -> ordered sh F).
  { intros sh [O1 O2]. split; [|now rewrite KF]. apply (Forall_map fst (fun i => in_box i sh)). rewrite KF. now apply (Forall_map fst (fun i => in_box i sh)). }
  clearbody F.
  assert (HX : forall d', holds (h ++ [map (conv_value d' u) xs]) (Buf (zlen (map (conv_value d' u) xs)) 0 (length h) u) (map (conv_value d' u) xs)) by (intros; apply holds_new).
  destruct s as [b|t|sh ind d|sh fi d|sh cr co d|sh ch a b c d|sh rd rsh rs ro d]; try contradiction; cbn [recopy_of unspecified_of] in *;
    unfold buf_recopy_of; rewrite new_buffer_ok; cbn [bind]; specialize (HX (bunspec d)).
  - pose proof HE as (H1 & H2 & H3 & H4 & H5 & H6 & H7 & H8).
    unfold mk_coo. rewrite H5. change (pyget [zlen sh; zlen E] 1) with (@Ok Z (zlen E)). cbn [bind].
    cbn [bsize]. unfold assert_. rewrite zlen_map, ZX, Z.eqb_refl. cbn [bind].
    eexists _, _. split; [reflexivity|]. split; [exact I|]. split; [reflexivity|]. split; [reflexivity|]. split; [apply extends_alloc|].
    split; [cbn; lia|]. split; [reflexivity|].
    cbn [entries]. split; [exact H1|]. split; [exact H2|]. split; [now apply map_snd_ordered, OF|].
    split; [rewrite map_snd_snd, SF; rewrite zlen_map, ZX in HX; exact HX|].
    rewrite map_snd_zlen, ZF. split; [exact H5|]. split; [exact H6|]. split.
    { rewrite (map_ext (fun k => column k (map_snd (conv_value (bunspec d) u) F)) (fun k => column k E))
        by (intros; rewrite map_snd_column; now apply column_keys). eapply holds_extends; [apply extends_alloc|exact H7]. }
    cbn [baddr]. pose proof (holds_lt _ _ _ H7). split; [lia|apply H8].
  - pose proof HE as (H1 & H2 & H3 & H4 & H5 & H6).
    assert (Hz : bsize fi = zlen E) by (destruct H5 as (l & _ & _ & Hs & _); rewrite Hs, !zlen_map; reflexivity).
    unfold mk_flatcoo. cbn [bsize]. unfold assert_. rewrite Hz, zlen_map, ZX, Z.eqb_refl. cbn [bind].
    eexists _, _. split; [reflexivity|]. split; [exact I|]. split; [reflexivity|]. split; [reflexivity|]. split; [apply extends_alloc|].
    split; [cbn; lia|]. split; [reflexivity|].
    cbn [entries]. split; [exact H1|]. split; [exact H2|]. split; [now apply map_snd_ordered, OF|].
    split; [rewrite map_snd_snd, SF; rewrite zlen_map, ZX in HX; exact HX|].
    split.
    { eapply holds_extends; [apply extends_alloc|]. unfold map_snd. rewrite map_map. cbn [fst].
      rewrite <- (map_map fst (fun i => VInt (zdot i (c_strides sh)))), KF, map_map. exact H5. }
    cbn [baddr]. pose proof (holds_lt _ _ _ H5). split; [lia|apply H6].
  - pose proof HE as (H1 & H2 & H3 & H4 & H5 & H6 & H7 & H8).
    destruct sh as [|n [|m [|? ?]]]; try (cbn in H2; lia).
    assert (Hn : 0 <= n) by now inversion H1.
    assert (Hz : bsize co = zlen E).
    { destruct H6 as (l & _ & _ & Hs & _). rewrite Hs. unfold column. rewrite !zlen_map. reflexivity. }
    assert (Hz2 : bsize cr = n + 1).
    { destruct H5 as (l & _ & _ & Hs & _). rewrite Hs, zlen_map, zseq_length. cbn [nth]. lia. }
    unfold mk_csr. cbn [bsize]. unfold assert_. change (zlen [n; m] =? 2) with true. cbn [bind].
    change (pyget [n; m] 0) with (@Ok Z n). cbn [bind]. rewrite Hz2, Z.eqb_refl. cbn [bind].
    rewrite Hz, zlen_map, ZX, Z.eqb_refl. cbn [bind].
    eexists _, _. split; [reflexivity|]. split; [exact I|]. split; [reflexivity|]. split; [reflexivity|]. split; [apply extends_alloc|].
    split; [cbn; lia|]. split; [reflexivity|].
    cbn [entries]. split; [exact H1|]. split; [exact H2|]. split; [now apply map_snd_ordered, OF|].
    split; [rewrite map_snd_snd, SF; rewrite zlen_map, ZX in HX; exact HX|].
    rewrite !map_snd_column, !(column_keys E F) by exact KF. split; [eapply holds_extends; [apply extends_alloc|exact H5]|].
    split; [eapply holds_extends; [apply extends_alloc|exact H6]|].
    cbn [baddr]. pose proof (holds_lt _ _ _ H5). pose proof (holds_lt _ _ _ H6). split; [lia|]. split; [lia|apply H8].
Qed.

(** * The moments of the reads *)
Lemma lex_leb_trans : forall a b c, lex_leb a b = true -> lex_leb b c = true -> lex_leb a c = true.
Proof.
  induction a as [|x a IH]; intros [|y b] [|z c]; cbn [lex_leb]; try discriminate; auto.
  destruct (x <? y) eqn:E1, (y <? x) eqn:E2, (y <? z) eqn:E3, (z <? y) eqn:E4, (x <? z) eqn:E5, (z <? x) eqn:E6; try discriminate; auto; try lia. apply IH.
Qed.
Lemma row_major_after : forall a b, row_major_lt a b -> lex_leb b a = false.
Proof.
  intros a b R. induction R as [x y a b Hxy _|x a b R IH]; cbn [lex_leb].
  - destruct (y <? x) eqn:E1; [lia|]. destruct (x <? y) eqn:E2; [reflexivity|lia].
  - now rewrite Z.ltb_irrefl.
Qed.
Lemma lex_leb_refl : forall a, lex_leb a a = true.
Proof. induction a as [|x a IH]; cbn [lex_leb]; [reflexivity|]. now rewrite Z.ltb_irrefl. Qed.

(** A moment for each index, in the order of the indices. *)
Lemma pick (P : nat -> list Z * pyval -> Prop) n' : forall keys xs ms n, StronglySorted row_major_lt keys ->
  in_order n ms n' -> Forall2 P ms (combine keys xs) ->
  exists w : list Z -> nat, (forall i, (n <= w i <= n')%nat) /\ (forall i j, lex_leb i j = true -> (w i <= w j)%nat)
    /\ forall p, In p (combine keys xs) -> P (w (fst p)) p.
Proof.
  induction keys as [|k keys IH]; intros xs ms n S O F; cbn [combine] in *.
  - inversion F; subst. cbn [in_order] in O. exists (fun _ => n). split; [lia|]. split; [lia|]. intros p [].
  - destruct xs as [|x xs]; [inversion F; subst; cbn [in_order] in O; exists (fun _ => n); split; [lia|]; split; [lia|]; intros p []|].
    inversion F as [|m ? ms' ? F1 F2]; subst. destruct O as [O1 O2]. inversion S as [|? ? S1 S2]; subst.
    destruct (IH xs ms' m S1 O2 F2) as (w & W1 & W2 & W3).
    exists (fun i => if lex_leb i k then m else w i). split; [|split].
    + intros i. specialize (W1 i). pose proof (in_order_le _ _ _ O2). destruct (lex_leb i k); lia.
    + intros i j Hij. destruct (lex_leb j k) eqn:Ej; [now rewrite (lex_leb_trans i j k Hij Ej)|]. destruct (lex_leb i k); [apply W1|now apply W2].
    + intros p [<-|Hp]; cbn [fst].
      * now rewrite lex_leb_refl.
      * replace (lex_leb (fst p) k) with false; [now apply W3|]. symmetry. apply row_major_after.
        rewrite Forall_forall in S2. apply S2. destruct p. now apply in_combine_l in Hp.
Qed.

Section Recopy.
Variable H : nat -> heap.
Variable N : nat.
Variable h : heap.

(** The values [xs] give, in any lists that have grown from ones [s] is well-formed
    in, a copy of [s] with the values [s] has at the moments [w]. *)
Definition good (s : storage) (n n' : nat) (xs : list pyval) : Prop :=
  exists w : list Z -> nat, (forall i, (n <= w i <= n')%nat)
    /\ (~ is_dm s -> forall i j, lex_leb i j = true -> (w i <= w j)%nat)
    /\ forall u h', keeps s h h' -> exists s' h'' f, recopy_of s u xs h' = Ok (s', h'')
        /\ same_class s s' /\ shape_of s' = shape_of s /\ unspecified_of s' = u /\ extends h' h''
        /\ (length h' <= data_addr s')%nat /\ index_addrs s' = index_addrs s
        /\ repr h'' s' f
        /\ forall i, in_box i (shape_of s) -> exists x, get_elem (H (w i)) s i = Ok x /\ f i = conv_value (unspecified_of s) u x.

Lemma mapM_read {X} s (f : X -> prog pyval) : forall l keys n, (n <= N)%nat ->
  Forall2 (fun x i => forall n, (n <= N)%nat -> timely H N n (read_at H s i n) (f x)) l keys ->
  timely H N n (fun n' r => exists xs ms, r = Ok xs /\ length xs = length keys /\ in_order n ms n'
     /\ Forall2 (fun m p => get_elem (H m) s (fst p) = Ok (snd p)) ms (combine keys xs)) (mapM_t f l).
Proof.
  induction l as [|x l IH]; intros keys n Hn F; inversion F as [|? k ? keys' F1 F2]; subst; cbn [mapM_t timely].
  - exists [], []. repeat split; try constructor.
  - eapply timely_bind; [exact Hn|exact (F1 n Hn)| |].
    + intros n1 v1 Hn1 (m & v & Hm & E & Ec). injection E as ->.
      eapply timely_bind; [|exact (IH keys' n1 ltac:(lia) F2)| |]; [lia| |].
      * intros n2 l2 Hn2 (xs & ms & E & Ek & Ho & Hf). injection E as ->. cbn [timely]. exists (v :: xs), (m :: ms).
        split; [reflexivity|]. split; [cbn; now rewrite Ek|]. split; [cbn [in_order]; split; [lia|]; apply in_order_from with n1; [lia|exact Ho]|].
        constructor; [exact Ec|exact Hf].
      * intros n2 e Hn2 (l' & ms & E & _). discriminate.
    + intros n1 e Hn1 (m & v & _ & E & _). discriminate.
Qed.

Lemma zrange_zseq o n : zrange o (o + n) = map (fun x => o + x) (zseq n).
Proof. unfold zrange. replace (o + n - o) with n by lia. unfold zseq. now rewrite map_map. Qed.
Lemma Forall2_both {X Y Z} (P : Y -> Z -> Prop) (f : X -> Y) (g : X -> Z) : forall l, (forall x, In x l -> P (f x) (g x)) -> Forall2 P (map f l) (map g l).
Proof. induction l as [|x l IH]; intros G; cbn [map]; constructor; [apply G; now left|]. apply IH. intros y Hy. apply G. now right. Qed.
Lemma get_current n s i v : valid (H n) s -> in_box i (shape_of s) -> current (H n) s (KTup i) = Ok v -> get_elem (H n) s i = Ok v.
Proof. intros (f & Hf) Hi. now rewrite (current_tuple _ _ _ _ Hf Hi), (repr_get _ _ _ _ Hf Hi). Qed.
Lemma in_keys {X Y} : forall (keys : list X) (xs : list Y) i, length xs = length keys -> In i keys -> exists x, In (i, x) (combine keys xs).
Proof.
  induction keys as [|k keys IH]; intros [|x xs] i L Hi; cbn in *; try lia; try contradiction. destruct Hi as [->|Hi]; [eauto|].
  destruct (IH xs i ltac:(lia) Hi) as (y & Hy). eauto.
Qed.
(** The sparse classes. *)
Lemma sparse_recopy s E d n : entries h s E -> data_buffer s = Ok d -> times H N h s -> (n <= N)%nat -> recopy_t s = buf_recopy_t d ->
  timely H N n (fun n' r => exists xs, r = Ok xs /\ good s n n' xs) (recopy_t s).
Proof.
  intros HE Ed HT Hn Er. rewrite Er. unfold buf_recopy_t. pose proof (repr_entries _ _ _ HE) as Hr.
  destruct (entries_data h s E HE) as (d0 & Ed0 & Hh & _). rewrite Ed in Ed0. injection Ed0 as <-.
  assert (Hs : bsize d = zlen E) by (destruct Hh as (l & _ & _ & Hs & _); rewrite Hs; apply zlen_map).
  assert (OE : ordered (shape_of s) E) by (destruct s; cbn in HE; try contradiction; cbn [shape_of]; tauto).
  rewrite zrange_zseq, Hs.
  eapply timely_weaken; [exact Hn| |].
  - apply (mapM_read s _ _ (map fst E) n Hn).
    replace (map fst E) with (map (fun p => nth (Z.to_nat p) (map fst E) []) (zseq (zlen E))) by (rewrite <- (zlen_map fst E); apply map_nth_zseq).
    apply Forall2_both. intros p Hp n1 Hn1. apply In_zseq in Hp.
    assert (Hin : In (nth (Z.to_nat p) (map fst E) [], p) (numbered E)).
    { apply In_numbered. split; [exact Hp|]. rewrite <- (map_nth fst E). apply nth_indep. rewrite map_length. unfold zlen in Hp. lia. }
    set (j := nth (Z.to_nat p) (map fst E) []) in *.
    pose proof (item_timely H N h s E d j p HE Ed HT Hin n1 Hn1) as X. cbn [item_t buf_get_t pbind timely] in *.
    intros n2 Hn2. specialize (X n2 Hn2). destruct (hget (H n2) (baddr d) (boff d + p)) as [v|e]; cbn [timely] in *.
    + destruct X as (m & v' & X1 & X2 & X3). injection X2 as ->. exists m, v'. split; [exact X1|]. split; [reflexivity|]. apply get_current; [|..|exact X3].
      * apply (valid_keeps _ h); [now exists (lookup E (unspecified_of s))|]. apply HT. lia.
      * destruct OE as [O1 _]. rewrite Forall_forall in O1. unfold j.
        assert (Hj : In j (map fst E)) by (apply nth_In; rewrite map_length; unfold zlen in Hp; lia).
        apply in_map_iff in Hj as (e & Ee & He). fold j. rewrite <- Ee. now apply O1.
    + destruct X as (m & v' & _ & X2 & _). discriminate.
  - cbn beta. intros n' r Hn' (xs & ms & -> & L & O & F). exists xs. split; [reflexivity|]. rewrite map_length in L.
    destruct (pick _ n' (map fst E) xs ms n (proj2 OE) O F) as (w & W1 & W2 & W3). exists w. split; [exact W1|]. split; [intros _; exact W2|].
    intros u h' K. destruct (entries_keeps h h' s E HE K) as (E2 & HE2 & F2).
    destruct (recopy_entries h' s E2 xs u HE2) as (s' & h'' & R1 & R2 & R3 & R4 & R5 & R6 & R7 & R8); [rewrite <- (map_length fst E2), F2, map_length; exact L|].
    exists s', h''. eexists. split; [exact R1|]. split; [exact R2|]. split; [exact R3|]. split; [exact R4|]. split; [exact R5|]. split; [exact R6|]. split; [exact R7|].
    split; [exact (repr_entries _ _ _ R8)|]. intros i Hi. rewrite R4, F2. cbn beta.
    assert (Lk : length xs = length (map fst E)) by (rewrite map_length; exact L).
    assert (C : forall x, lookup (combine (map fst E) xs) (unspecified_of s) i = x ->
      lookup (map_snd (conv_value (unspecified_of s) u) (combine (map fst E) xs)) u i = conv_value (unspecified_of s) u x).
    { intros x <-. rewrite <- (map_snd_lookup (conv_value (unspecified_of s) u)). now rewrite conv_value_unspec. }
    destruct (in_dec (list_eq_dec Z.eq_dec) i (map fst E)) as [Hk|Hk].
    + destruct (in_keys _ xs i Lk Hk) as (x & Hx). exists x. split; [exact (W3 _ Hx)|]. apply C. apply In_lookup; [|exact Hx].
      rewrite combine_fst by exact Lk. apply sorted_NoDup, (proj2 OE).
    + exists (unspecified_of s). split.
      * destruct (entries_keeps h (H (w i)) s E HE (HT (w i) ltac:(specialize (W1 i); lia))) as (E3 & HE3 & F3).
        rewrite (repr_get _ _ _ _ (repr_entries _ _ _ HE3) Hi). f_equal. apply lookup_absent. now rewrite F3.
      * apply C. apply lookup_absent. now rewrite combine_fst.
Qed.

(** Buffer and Strided. *)
Lemma dense_recopy s n keys (m : prog (list pyval)) : StronglySorted row_major_lt keys -> (forall i, in_box i (shape_of s) -> In i keys) -> (n <= N)%nat -> ~ is_dm s ->
  (forall xs u h', length xs = length keys -> keeps s h h' -> exists s' h'', recopy_of s u xs h' = Ok (s', h'')
     /\ same_class s s' /\ shape_of s' = shape_of s /\ unspecified_of s' = u /\ extends h' h'' /\ (length h' <= data_addr s')%nat /\ index_addrs s' = index_addrs s
     /\ repr h'' s' (fun i => conv_value (unspecified_of s) u (lookup (combine keys xs) VNone i))) ->
  timely H N n (fun n' r => exists xs ms, r = Ok xs /\ length xs = length keys /\ in_order n ms n'
     /\ Forall2 (fun m p => get_elem (H m) s (fst p) = Ok (snd p)) ms (combine keys xs)) m ->
  timely H N n (fun n' r => exists xs, r = Ok xs /\ good s n n' xs) m.
Proof.
  intros S Hk Hn Hd Hb T. eapply timely_weaken; [exact Hn|exact T|]. cbn beta. intros n' r Hn' (xs & ms & -> & L & O & F). exists xs. split; [reflexivity|].
  destruct (pick _ n' keys xs ms n S O F) as (w & W1 & W2 & W3). exists w. split; [exact W1|]. split; [intros _; exact W2|].
  intros u h' K. destruct (Hb xs u h' L K) as (s' & h'' & R1 & R2 & R3 & R4 & R5 & R6 & R7 & R8).
  exists s', h''. eexists. split; [exact R1|]. split; [exact R2|]. split; [exact R3|]. split; [exact R4|]. split; [exact R5|]. split; [exact R6|]. split; [exact R7|].
  split; [exact R8|]. intros i Hi. destruct (in_keys _ xs i L (Hk i Hi)) as (x & Hx). exists x. split; [exact (W3 _ Hx)|]. cbn beta. f_equal.
  apply In_lookup; [|exact Hx]. rewrite combine_fst by exact L. now apply sorted_NoDup.
Qed.

Lemma lookup_combine keys xs k : NoDup keys -> length xs = length keys -> (k < length keys)%nat ->
  lookup (combine keys xs) VNone (nth k keys []) = nth k xs VNone.
Proof.
  intros ND L Hk. apply In_lookup; [now rewrite combine_fst|]. rewrite <- (combine_nth keys xs k [] VNone) by lia.
  apply nth_In. rewrite combine_length. lia.
Qed.

Lemma singletons_sorted n : StronglySorted row_major_lt (map (fun x => [x]) (zseq n)).
Proof.
  replace (map (fun x => [x]) (zseq n)) with (cart [n]); [apply cart_sorted|]. cbn [cart]. induction (zseq n) as [|x l IH]; [reflexivity|].
  cbn [flat_map map app] in *. now f_equal.
Qed.

Lemma buffer_recopied b xs u h' : zlen xs = bsize b -> exists s' h'', recopy_of (SBuffer b) u xs h' = Ok (s', h'')
  /\ same_class (SBuffer b) s' /\ shape_of s' = [bsize b] /\ unspecified_of s' = u /\ extends h' h'' /\ (length h' <= data_addr s')%nat /\ index_addrs s' = []
  /\ repr h'' s' (fun i => conv_value (bunspec b) u (lookup (combine (map (fun x => [x]) (zseq (bsize b))) xs) VNone i)).
Proof.
  intros Hz. cbn [recopy_of]. unfold buf_recopy_of. rewrite new_buffer_ok. cbn [bind]. eexists _, _. split; [reflexivity|]. split; [exact I|].
  cbn [shape_of bsize]. split; [now rewrite zlen_map, Hz|]. split; [reflexivity|]. split; [apply extends_alloc|]. split; [cbn; lia|]. split; [reflexivity|].
  cbn [repr]. eexists. split; [apply holds_new|]. intros x Hx. rewrite zlen_map in Hx.
  assert (Ln : length (map (fun x : Z => [x]) (zseq (bsize b))) = length xs) by (rewrite map_length; apply Nat2Z.inj; change (zlen (zseq (bsize b)) = zlen xs); rewrite zseq_length; lia).
  assert (Ex : [x] = nth (Z.to_nat x) (map (fun x : Z => [x]) (zseq (bsize b))) []).
  { rewrite nth_indep with (d' := [0]) by (rewrite Ln; unfold zlen in Hx; lia). rewrite (map_nth (fun x : Z => [x])). f_equal. unfold zseq. rewrite (map_nth Z.of_nat _ 0%nat), seq_nth by lia. lia. }
  rewrite Ex at 1. rewrite lookup_combine; [|apply sorted_NoDup, singletons_sorted|lia|rewrite Ln; unfold zlen in Hx; lia].
  rewrite <- (map_nth (conv_value (bunspec b) u)). apply nth_indep. rewrite map_length. unfold zlen in Hx. lia.
Qed.

Lemma strided_recopied t xs u h' : nonneg (sshape t) -> length xs = length (cart (sshape t)) -> exists s' h'', recopy_of (SStrided t) u xs h' = Ok (s', h'')
  /\ same_class (SStrided t) s' /\ shape_of s' = sshape t /\ unspecified_of s' = u /\ extends h' h'' /\ (length h' <= data_addr s')%nat /\ index_addrs s' = []
  /\ repr h'' s' (fun i => conv_value (bunspec (sdata t)) u (lookup (combine (cart (sshape t)) xs) VNone i)).
Proof.
  intros Hn L. cbn [recopy_of]. rewrite (strided_recopy_ok h' t u xs Hn L). cbn [bind]. eexists _, _. split; [reflexivity|]. split; [exact I|].
  split; [reflexivity|]. split; [reflexivity|]. split; [apply extends_alloc|]. split; [cbn; lia|]. split; [reflexivity|].
  set (g := fun i => lookup (combine (cart (sshape t)) xs) VNone i).
  assert (Ex : xs = map g (cart (sshape t))).
  { apply nth_ext with (d := VNone) (d' := g []); [now rewrite map_length|]. intros k Hk. rewrite (map_nth g). unfold g. symmetry. apply lookup_combine; [|lia..].
    apply sorted_NoDup, cart_sorted. }
  destruct (strided_build_ok (fun i => Ok (g i)) g (sshape t) (bunspec (sdata t)) u h' Hn (fun i _ => eq_refl)) as (_ & B2 & B3).
  rewrite zlen_map in B2, B3. unfold zlen in B2, B3. rewrite (BuildFacts.cart_length _ Hn) in B2, B3.
  assert (Em : map (conv_value (bunspec (sdata t)) u) xs = map (fun i => conv_value (bunspec (sdata t)) u (g i)) (cart (sshape t))).
  { rewrite <- (map_map g). now rewrite <- Ex. }
  rewrite Em. cbn [repr sdata baddr sshape]. eexists. split; [apply nth_error_new|]. split; [exact B2|]. intros i Hi. now rewrite B3.
Qed.

Lemma recopy_timely : forall s, valid h s -> times H N h s -> forall n, (n <= N)%nat ->
  timely H N n (fun n' r => exists xs, r = Ok xs /\ good s n n' xs) (recopy_t s).
Proof.
  induction s as [b|t|sh ind d|sh fi d|sh cr co d|sh ch a b c d|sh rd rsh rs ro d IH]; intros V HT n Hn.
  - pose proof V as (f & vs & Hh & _). assert (Hs : bsize b = zlen vs) by (destruct Hh as (l & _ & _ & Hs & _); exact Hs).
    apply (dense_recopy (SBuffer b) n (map (fun x => [x]) (zseq (bsize b)))); [apply singletons_sorted| |exact Hn|intros []| |].
    + intros i Hi. cbn [shape_of] in Hi. apply box1 in Hi as (x & -> & Hx). apply in_map_iff. exists x. split; [reflexivity|now apply In_zseq].
    + intros xs u h' L K. apply buffer_recopied. unfold zlen. rewrite L, map_length. change (zlen (zseq (bsize b)) = bsize b). rewrite zseq_length. unfold zlen in Hs. lia.
    + cbn [recopy_t]. unfold buf_recopy_t. apply mapM_read; [exact Hn|]. rewrite zrange_zseq. apply Forall2_both. intros x Hx n1 Hn1. apply In_zseq in Hx.
      apply (read_timely H N h (SBuffer b) [x] V); [|exact HT|exact Hn1]. constructor; [exact Hx|constructor].
  - pose proof V as (f & Hr). pose proof (repr_nonneg _ _ _ Hr) as Hnn. cbn [shape_of] in Hnn.
    apply (dense_recopy (SStrided t) n (cart (sshape t))); [apply cart_sorted| |exact Hn|intros []| |].
    + intros i Hi. now apply In_cart.
    + intros xs u h' L K. now apply strided_recopied.
    + change (recopy_t (SStrided t)) with (l <~ elements_t (SStrided t) ;; Ret (Ok (map snd l))).
      pose proof (elements_dense h _ f Hr I) as El.
      eapply timely_bind; [exact Hn|exact (elements_timely H N h (SStrided t) V ltac:(intros []) HT _ n El Hn)| |].
      * intros n1 l Hn1 (l' & ms & E1 & E2 & E3 & E4). injection E1 as ->. cbn [timely]. exists (map snd l'), ms. split; [reflexivity|].
        rewrite map_map in E2. cbn [fst shape_of] in E2.
        assert (Ll : length l' = length (cart (sshape t))) by (rewrite <- (map_length fst l'), E2; apply map_length).
        split; [now rewrite map_length|]. split; [exact E3|].
        assert (G : forall i, In i (cart (sshape t)) -> in_box i (sshape t)) by (intros i; apply In_cart).
        assert (Hm : forall m, In m ms -> (m <= N)%nat) by (intros m Hm; pose proof (in_order_in _ _ _ _ E3 Hm); lia).
        clear -E2 E4 G Hm V HT. revert ms l' E2 E4 Hm. induction (cart (sshape t)) as [|i c IH]; intros ms l' E2 E4 Hm; destruct l' as [|[k v] l']; try discriminate.
        -- inversion E4. constructor.
        -- cbn [map combine snd fst] in *. injection E2 as -> E2. inversion E4 as [|m ? ms' ? X1 X2]; subst. constructor.
           ++ apply get_current; [|apply G; now left|exact X1]. apply (valid_keeps _ h _ V). apply HT, Hm. now left.
           ++ apply IH; [intros j Hj; apply G; now right|exact E2|exact X2|]. intros m' Hm'. apply Hm. now right.
      * intros n1 e Hn1 (l' & ms & E1 & _). discriminate.
  - destruct V as (f & E & HE & _). now apply (sparse_recopy _ E d).
  - destruct V as (f & E & HE & _). now apply (sparse_recopy _ E d).
  - destruct V as (f & E & HE & _). now apply (sparse_recopy _ E d).
  - destruct V as (f & E & [] & _).
  - pose proof V as (f & g & Hg & Hd & _). cbn [recopy_t].
    eapply timely_weaken; [exact Hn|exact (IH (ex_intro _ g Hg) HT n Hn)|]. cbn beta. intros n' r Hn' (xs & -> & w & W1 & _ & W3). exists xs. split; [reflexivity|].
    exists (fun i => w (dm_index rd rs ro i)). split; [intros i; apply W1|]. split; [intros Hx; now destruct Hx|].
    intros u h' K. destruct (W3 u h' K) as (d' & h'' & f' & R1 & R2 & R3 & R4 & R5 & R6 & R7 & R8 & R9).
    cbn [recopy_of]. rewrite R1. cbn [bind]. rewrite mk_dm_ok; [|apply (dm_groups _ _ _ _ _ _ Hd)|apply (dm_perm _ _ _ _ _ _ Hd)].
    cbn [bind]. rewrite <- (dm_rshapes _ _ _ _ _ _ Hd). eexists _, _, (fun i => f' (dm_index rd rs ro i)). split; [reflexivity|]. split; [exact I|]. split; [reflexivity|].
    split; [exact R4|]. split; [exact R5|]. split; [exact R6|]. split; [exact R7|]. split.
    + cbn [repr]. exists f'. split; [exact R8|]. rewrite R3. split; [exact Hd|]. reflexivity.
    + intros i Hi. cbn [shape_of] in Hi. destruct (R9 _ (dm_box _ _ _ _ _ _ Hd i Hi)) as (x & X1 & X2). exists x. split; [|exact X2].
      assert (Vw : valid (H (w (dm_index rd rs ro i))) (SDM sh rd rsh rs ro d)).
      { apply (valid_keeps _ h _ V). apply HT. specialize (W1 (dm_index rd rs ro i)). lia. }
      destruct Vw as (f2 & Hf2). rewrite (repr_get _ _ _ _ Hf2 Hi). destruct Hf2 as (g2 & Hg2 & _ & F2).
      rewrite (repr_get _ _ _ _ Hg2 (dm_box _ _ _ _ _ _ Hd i Hi)) in X1. rewrite (F2 i Hi). exact X1.
Qed.
End Recopy.

(** * Alone *)

Lemma run_reads h a l : cell h a = Ok l -> forall ps, run (mapM_t (fun p => Get a p (fun v => Ret (Ok v))) ps) h = (h, mapM (pyget l) ps).
Proof.
  intros E. induction ps as [|p ps IH]; cbn [mapM_t mapM run pbind]; [reflexivity|]. unfold hget. rewrite E. cbn [bind].
  destruct (pyget l p) as [v|e]; [|reflexivity]. cbn [pbind run bind]. rewrite run_bind, IH. destruct (mapM (pyget l) ps); reflexivity.
Qed.
Lemma buf_recopied h b vs u : holds h b vs -> u <> bunspec b ->
  run (buf_recopy_t b) h = (h, Ok vs) /\ buf_copy h b (Some u) = buf_recopy_of b u vs h.
Proof.
  intros Hh Hu. pose proof Hh as (l & Hl & _). unfold buf_recopy_t. rewrite (run_reads h _ l (cell_ok _ _ _ Hl)), (holds_zrange h b vs l Hh Hl).
  split; [reflexivity|]. unfold buf_copy. rewrite (cell_ok _ _ _ Hl). cbn [bind].
  destruct (veqb u (bunspec b)) eqn:E; [apply veqb_eq in E; contradiction|]. now rewrite (holds_zrange h b vs l Hh Hl).
Qed.

(** If no other thread runs, this is copy. *)
Theorem C120_alone : forall h s u, valid h s -> u <> unspecified_of s ->
  exists xs, run (recopy_t s) h = (h, Ok xs) /\ copy h s (Some u) = recopy_of s u xs h.
Proof.
  intros h s u V. revert V. induction s as [b|t|sh ind d|sh fi d|sh cr co d|sh ch a b c d|sh rd rsh rs ro d IH]; intros V Hu; cbn [unspecified_of] in Hu.
  - destruct V as (f & vs & Hh & _). destruct (buf_recopied h b vs u Hh Hu) as [R1 R2]. exists vs. split; [exact R1|]. cbn [copy recopy_of]. now rewrite R2.
  - pose proof V as (f & Hr). exists (map f (cart (sshape t))). split.
    + change (recopy_t (SStrided t)) with (l <~ elements_t (SStrided t) ;; Ret (Ok (map snd l))). rewrite run_bind, (run_elements h (SStrided t) V) by intros [].
      rewrite (elements_dense h _ f Hr I). cbn [run shape_of]. now rewrite map_map.
    + cbn [copy recopy_of]. rewrite (strided_copy_ok h t f (Some u) Hr). pose proof (repr_nonneg _ _ _ Hr) as Hn. cbn [shape_of] in Hn.
      rewrite (strided_recopy_ok h t u _ Hn) by apply map_length. cbn [bind new_unspec]. now rewrite map_map.
  - destruct V as (f & E & HE & _). destruct (entries_data h _ E HE) as (d0 & Ed & Hh & _). injection Ed as <-.
    destruct (buf_recopied h d _ u Hh Hu) as [R1 R2]. eexists. split; [exact R1|]. cbn [copy recopy_of]. now rewrite R2.
  - destruct V as (f & E & HE & _). destruct (entries_data h _ E HE) as (d0 & Ed & Hh & _). injection Ed as <-.
    destruct (buf_recopied h d _ u Hh Hu) as [R1 R2]. eexists. split; [exact R1|]. cbn [copy recopy_of]. now rewrite R2.
  - destruct V as (f & E & HE & _). destruct (entries_data h _ E HE) as (d0 & Ed & Hh & _). injection Ed as <-.
    destruct (buf_recopied h d _ u Hh Hu) as [R1 R2]. eexists. split; [exact R1|]. cbn [copy recopy_of]. now rewrite R2.
  - destruct V as (f & E & [] & _).
  - destruct V as (f & g & Hg & _). destruct (IH (ex_intro _ g Hg) Hu) as (xs & R1 & R2). exists xs. split; [exact R1|]. cbn [copy recopy_of]. now rewrite R2.
Qed.
Print Assumptions C120_alone.

(** * With other threads *)

Lemma leaves_recopy l : forall s, leaves l (recopy_t s).
Proof.
  assert (B : forall b, leaves l (buf_recopy_t b)) by (intros b; apply w_mapM; intros p; cbn; auto).
  induction s; cbn [recopy_t]; auto. apply leaves_bind; [apply leaves_elements|]. intros x. exact I.
Qed.

(** One thread copies [s] with the unspecified value [u]; the others may do
    anything except put things into the lists with the indices of [s].  It ends
    with an array of the class and shape of [s], over a list of its own and the
    index lists of [s]; each element is the one [s] has at some moment, with
    [u] in place of the old unspecified value, and unless [s] is a
    DimensionMerger the moments are in the order of the indices. *)
Theorem C120_values : forall B (give : list pyval -> B) sched h ts j s u h' ts' r,
  valid h s ->
  nth_error ts j = Some (ends_with (recopy_t s) give) ->
  (forall k t, k <> j -> nth_error ts k = Some t -> leaves (index_addrs s) t) ->
  exec sched h ts = (h', ts') -> nth_error ts' j = Some (Ret r) ->
  exists xs s' h'' (w : list Z -> nat), r = Ok (give xs) /\ recopy_of s u xs h' = Ok (s', h'')
    /\ same_class s s' /\ shape_of s' = shape_of s /\ unspecified_of s' = u
    /\ extends h' h'' /\ (length h' <= data_addr s')%nat /\ index_addrs s' = index_addrs s /\ valid h'' s'
    /\ (forall i, (w i <= length sched)%nat)
    /\ (~ is_dm s -> forall i i', lex_leb i i' = true -> (w i <= w i')%nat)
    /\ forall i, in_box i (shape_of s) -> exists x, get_elem (moment sched h ts (w i)) s i = Ok x
         /\ get_elem h'' s' i = Ok (if veqb x (unspecified_of s) then u else x).
Proof.
  intros B give sched h ts j s u h' ts' r V Ej Ho E Er.
  assert (F : Forall (leaves (index_addrs s)) ts).
  { apply Forall_forall. intros t Ht. apply In_nth_error in Ht as (k & Hk). destruct (Nat.eq_dec k j) as [->|Nk]; [|now apply (Ho k)].
    rewrite Ej in Hk. injection Hk as <-. apply leaves_end, leaves_recopy. }
  set (N := length sched). set (H := moment sched h ts). assert (T : times H N h s) by (intros n _; now apply moment_keeps).
  assert (X : exists xs, r = Ok (give xs) /\ good H h s 0 N xs).
  { refine (exec_timely (fun n' r => exists xs, r = Ok (give xs) /\ good H h s 0 n' xs) H N j _ sched h ts 0%nat _ r eq_refl (fun k _ => eq_refl) Ej _ _).
    - intros n n' r' Hn (xs & X1 & w & W1 & W2). exists xs. split; [exact X1|]. exists w. split; [|exact W2]. intros i. specialize (W1 i). lia.
    - eapply timely_bind; [lia|exact (recopy_timely H N h s V T 0 ltac:(lia))| |].
      + intros n' xs Hn' (xs' & X1 & G). injection X1 as ->. cbn [timely]. exists xs'. now split.
      + intros n' e Hn' (xs' & X1 & _). discriminate.
    - rewrite E. exact Er. }
  destruct X as (xs & -> & w & W1 & W2 & W3).
  assert (K : keeps s h h').
  { pose proof (moment_keeps s sched h ts N F) as X. unfold moment, N in X. rewrite firstn_all, E in X. exact X. }
  destruct (W3 u h' K) as (s' & h'' & f & R1 & R2 & R3 & R4 & R5 & R6 & R7 & R8 & R9).
  exists xs, s', h'', w. split; [reflexivity|]. repeat (split; [assumption|]). split; [now exists f|]. split; [intros i; apply W1|]. split; [exact W2|].
  intros i Hi. destruct (R9 i Hi) as (x & X1 & X2). exists x. split; [exact X1|].
  rewrite (repr_get _ _ _ _ R8) by now rewrite R3. rewrite X2. reflexivity.
Qed.
Print Assumptions C120_values.

(** If the others leave all lists of [s] alone, the elements are those of the copy
    made before. *)
Theorem C120_still : forall B (give : list pyval -> B) sched h ts j s u h' ts' r,
  valid h s -> u <> unspecified_of s ->
  nth_error ts j = Some (ends_with (recopy_t s) give) ->
  (forall k t, k <> j -> nth_error ts k = Some t -> leaves (addrs s) t) ->
  exec sched h ts = (h', ts') -> nth_error ts' j = Some (Ret r) ->
  exists xs s' h'' s1 h1, r = Ok (give xs) /\ recopy_of s u xs h' = Ok (s', h'')
    /\ copy h s (Some u) = Ok (s1, h1)
    /\ same_class s1 s' /\ shape_of s' = shape_of s1 /\ unspecified_of s' = unspecified_of s1
    /\ forall i, in_box i (shape_of s) -> get_elem h'' s' i = get_elem h1 s1 i.
Proof.
  intros B give sched h ts j s u h' ts' r V Hu Ej Ho E Er.
  destruct (C120_values B give sched h ts j s u h' ts' r V Ej) as (xs & s' & h'' & w & R1 & R2 & R3 & R4 & R5 & _ & _ & _ & _ & _ & _ & R6); [|exact E|exact Er|].
  { intros k x Nk Hk. eapply within_mono; [| |exact (Ho k x Nk Hk)]; cbv beta; [auto|]. intros a _ Ha Hi. apply Ha. now apply index_in_addrs. }
  assert (F : Forall (leaves (addrs s)) ts).
  { apply Forall_forall. intros t Ht. apply In_nth_error in Ht as (k & Hk). destruct (Nat.eq_dec k j) as [->|Nk]; [|now apply (Ho k)].
    rewrite Ej in Hk. injection Hk as <-. apply leaves_end, leaves_recopy. }
  pose proof V as (f & Hf). destruct (copy_ok s h f (Some u) Hf) as (s1 & h1 & C1 & C2 & C3 & _ & C4 & _ & _ & C5). cbn [new_unspec] in *.
  exists xs, s', h'', s1, h1. split; [exact R1|]. split; [exact R2|]. split; [exact C1|].
  split; [destruct s, s1; try contradiction; destruct s'; try contradiction; exact I|]. split; [congruence|]. split; [congruence|].
  intros i Hi. rewrite (repr_get _ _ _ _ C4) by now rewrite C2. destruct (R6 i Hi) as (x & X1 & ->). unfold conv_value. do 2 f_equal.
  assert (Fr : forall a, In a (addrs s) -> nth_error h a = nth_error (moment sched h ts (w i)) a).
  { intros a Ha. unfold moment. destruct (exec (firstn (w i) sched) h ts) as [h2 ts2] eqn:E1. cbn [fst]. symmetry. now apply (exec_leaves _ _ _ _ _ _ F E1). }
  apply (get_elem_frame _ h s i x Fr) in X1. rewrite (repr_get _ _ _ _ Hf Hi) in X1. injection X1 as <-. reflexivity.
Qed.
Print Assumptions C120_still.

(** A copy with another unspecified value can have elements the array never has
    together: a Buffer [1, 2] becomes [3, 2] and then [3, 4], the copy is [1, 4]. *)
Definition two_cells : storage := SBuffer (Buf 2 0 0 VNone).
Definition two_writes : list op := [Assign two_cells (XItem (IInt 0)) (SrcSeq (VInt 3)); Assign two_cells (XItem (IInt 1)) (SrcSeq (VInt 4))].
Definition as_read (xs : list pyval) : list pyval := xs.
Lemma two_cells_valid a b : valid [[VInt a; VInt b]] two_cells.
Proof.
  exists (fun i => nth (Z.to_nat (nth 0 i 0)) [VInt a; VInt b] VNone). exists [VInt a; VInt b]. split; [|intros; reflexivity].
  exists [VInt a; VInt b]. split; [reflexivity|]. split; [cbn; lia|]. split; [reflexivity|]. split; [cbn; lia|reflexivity].
Qed.
Theorem C120_mixture : exists sched h ts s h' ts' xs s' h'',
  valid h s /\ nth_error ts 0 = Some (ends_with (recopy_t s) as_read)
  /\ (forall k t, k <> 0%nat -> nth_error ts k = Some t -> leaves (index_addrs s) t)
  /\ exec sched h ts = (h', Ret (Ok (as_read xs)) :: ts') /\ recopy_of s (VInt 0) xs h' = Ok (s', h'')
  /\ forall n, exists i x y, in_box i (shape_of s) /\ get_elem h'' s' i = Ok x /\ get_elem (moment sched h ts n) s i = Ok y /\ x <> y.
Proof.
  exists [0; 1; 1; 0]%nat, [[VInt 1; VInt 2]], [ends_with (recopy_t two_cells) as_read; thread two_writes], two_cells.
  eexists _, _, [VInt 1; VInt 4], _, _. split; [apply two_cells_valid|]. split; [reflexivity|]. split; [|split; [vm_compute; reflexivity|split; [vm_compute; reflexivity|]]].
  - intros [|[|k]] t Nk Hk; [congruence| |destruct k; discriminate]. change (Some (thread two_writes) = Some t) in Hk.
    replace t with (thread two_writes) by congruence. apply leaves_thread. intros a _ [].
  - assert (B0 : in_box [0] [2]) by (constructor; [lia|constructor]). assert (B1 : in_box [1] [2]) by (constructor; [lia|constructor]).
    intros n. do 2 (destruct n as [|n]; [exists [1], (VInt 4), (VInt 2); split; [exact B1|]; split; [reflexivity|]; split; [vm_compute; reflexivity|discriminate]|]).
    exists [0], (VInt 1), (VInt 3). split; [exact B0|]. split; [reflexivity|]. split; [|discriminate].
    do 2 (destruct n as [|n]; [vm_compute; reflexivity|]). unfold moment. rewrite firstn_all2 by (cbn; lia). vm_compute. reflexivity.
Qed.
Print Assumptions C120_mixture.

(** The COO array of C115_case, copied with None for 0 while two threads assign to
    its elements; the 2nd element is the one before the assignment. *)
Example C120_case :
  let others := map thread [[Assign sparse_view everything (SrcSeq (VSeq (map VInt [1; 2; 3; 4; 5; 6])))];
                            [Assign dense_view everything (SrcSeq (VSeq (map VInt [7; 0; 9])))]] in
  valid shared_lists sparse_view /\ VNone <> unspecified_of sparse_view
  /\ Forall (leaves (index_addrs sparse_view)) others
  /\ exists sched h' ts' xs s' h'', exec sched shared_lists (ends_with (recopy_t sparse_view) as_read :: others) = (h', Ret (Ok (as_read xs)) :: ts')
       /\ recopy_of sparse_view VNone xs h' = Ok (s', h'')
       /\ map (get_elem h'' s') (cart [6]) = map Ok [VInt 10; VNone; VNone; VNone; VNone; VInt 9].
Proof.
  cbv zeta. split; [exact sparse_view_valid|]. split; [discriminate|]. split.
  - constructor; [|constructor; [|constructor]]; apply leaves_thread; cbn; intros a [<-|[]]; intros X; repeat destruct X as [X|X]; try discriminate; contradiction.
  - exists ([0] ++ repeat 2 30 ++ repeat 0 30)%nat. eexists _, _, _, _, _. split; [vm_compute; reflexivity|]. split; [vm_compute; reflexivity|vm_compute; reflexivity].
Qed.

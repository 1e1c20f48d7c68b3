(** C124: whether slicing a DM array touches its data. *)
From Verif Require Import Py SliceTools Basics Storage Spec SliceFacts IndexFacts Repr ReprFacts SparseFacts DMFacts ChainFacts
  PropRead Threads ThreadFacts Copies PropThreads PropRaces PropFlow Cuts PropCuts CutsDM PropCutsDM.
From Coq Require Import List.
Import ListNotations.

(** Over Strided or Buffer data a slice uses the lists of the array itself and makes
    no list. *)
Theorem C124_dense_partial : forall h0 h s ix, built_dm h0 h s -> dense_based s -> ok_index ix (shape_of s) ->
  slice_shape ix (shape_of s) <> [] ->
  exists t, getitem h s ix = Ok (ISto t, h) /\ shape_of t = slice_shape ix (shape_of s) /\ addrs t = addrs s.
Proof.
  intros h0 h s ix B D Hok Hne. destruct (C123_built h0 h s ix B Hok Hne) as ((f & Hr) & Hp & Hs).
  destruct (getitem_slice_full s h f ix Hr Hp Hok Hne Hs) as (t & h' & E & E1 & _ & _ & _ & E2 & _).
  destruct (E2 D) as (-> & Ea & _). now exists t.
Qed.
Print Assumptions C124_dense_partial.

(** Over COO, FlatCOO or CSR data every slice, also one that keeps all axes, is made
    of new lists: what is assigned to [s] or its data later is not seen in it. *)
Theorem C124_copies_refuted : forall h0 h s ix, built_dm h0 h s -> sparse_based s -> ok_index ix (shape_of s) ->
  slice_shape ix (shape_of s) <> [] ->
  exists t h', getitem h s ix = Ok (ISto t, h') /\ shape_of t = slice_shape ix (shape_of s)
    /\ extends h h' /\ (length h < length h')%nat /\ (forall a, In a (addrs s) -> ~ In a (addrs t))
    /\ forall now, (forall a, In a (addrs t) -> nth_error now a = nth_error h' a) ->
         forall j, in_box j (shape_of t) -> get_elem now t j = get_elem h s (source_index ix (shape_of s) j).
Proof.
  intros h0 h s ix B D Hok Hne. destruct (C123_built h0 h s ix B Hok Hne) as ((f & Hr) & Hp & Hs).
  destruct (getitem_slice_full s h f ix Hr Hp Hok Hne Hs) as (t & h' & E & E1 & _ & E2 & E3 & _ & E4 & _).
  destruct (E4 D) as [F _]. exists t, h'. split; [exact E|]. split; [exact E1|]. split; [exact E2|].
  pose proof (fun a => repr_addrs h s f a Hr) as As. pose proof (fun a => repr_addrs h' t _ a E3) as At.
  split; [|split].
  - specialize (F (data_addr t) ltac:(now left)). specialize (At (data_addr t) ltac:(now left)). lia.
  - intros a Ha Ht. specialize (As a Ha). specialize (F a Ht). lia.
  - intros now Hn j Hj. rewrite E1 in Hj.
    assert (Hi : in_box (source_index ix (shape_of s) j) (shape_of s)) by now apply source_index_in_box.
    rewrite (repr_get _ _ _ _ Hr Hi). rewrite <- E1 in Hj.
    apply (repr_get now t (fun j => f (source_index ix (shape_of s) j))); [|exact Hj].
    eapply repr_frame; [|exact E3]. exact Hn.
Qed.
Print Assumptions C124_copies_refuted.

(** * Reads *)
Lemma iad_reads h s E L : entries h s E -> E <> [] -> positive (shape_of s) -> sparse_iad h s = Ok L ->
  exists a p k, sparse_iad_t s = Get a p k.
Proof.
  intros HE Hne Hp HL. pose proof (reads_iad h s E HE h) as R. cbv beta in R. rewrite HL in R.
  assert (Z0 : forall n, 0 < n -> exists l, zseq n = 0 :: l).
  { intros n Hn. unfold zseq. replace (Z.to_nat n) with (S (Z.to_nat (n - 1))) by lia. eexists. reflexivity. }
  assert (Hl : 0 < zlen E) by (destruct E; [congruence|unfold zlen; cbn [length]; lia]).
  destruct s as [b|t|sh ind d|sh fi d|sh cr co d|sh ch a b c d|sh rd rsh rs ro d]; try contradiction; cbn [sparse_iad_t] in *.
  - destruct HE as (_ & Hs & _ & _ & Es & _). unfold coo_iad_t in *. rewrite Es in *.
    change (pyget [zlen sh; zlen E] 1) with (Ok (zlen E) : res Z) in *. change (pyget [zlen sh; zlen E] 0) with (Ok (zlen sh) : res Z) in *.
    cbn [pbind] in *. destruct (Z0 _ Hl) as (l & El). rewrite El in *.
    destruct (Z0 (zlen sh)) as (l' & El'); [destruct sh; [congruence|unfold zlen; cbn [length]; lia]|]. rewrite El' in *.
    cbn [mapM_t] in *. unfold strided_int_t, strided_elem_t in *.
    set (x := int_tuple [0; 0]) in *.
    destruct (normalize_index x (sshape ind)) as [nix|e]; [|discriminate R]. cbn [pbind] in *.
    destruct (is_element_index nix (sshape ind)); [|discriminate R].
    destruct (get_position (int_items nix) (sshape ind) (sstrides ind)) as [q|e]; [|discriminate R]. cbn [pbind buf_get_t]. eauto.
  - destruct HE as (_ & _ & _ & _ & (lf & _ & _ & Ef & _) & _). rewrite zlen_map in Ef. unfold flatcoo_iad_t in *.
    destruct (init_diophantine (make_strides sh) (Some sh)) as [sd|e]; [|discriminate R]. cbn [pbind].
    rewrite <- Ef in Hl. destruct (Z0 _ Hl) as (l & El). rewrite El. cbn [mapM_t]. unfold buf_int_t, buf_get_t. cbn [pbind]. eauto.
  - destruct sh as [|n sh]; [destruct HE as (_ & Hl2 & _); discriminate|]. change (pyget (n :: sh) 0) with (Ok n : res Z). cbn [pbind].
    inversion Hp as [|? ? Hn _]; subst. destruct (Z0 _ Hn) as (l & El). rewrite El. cbn [csr_iad_rows_t]. unfold buf_int_t, buf_get_t. cbn [pbind]. eauto.
Qed.

(** A slice of a DM array over sparse data that has stored elements begins with a
    read of a list, also where it keeps all axes. *)
Theorem C124_reads_refuted : forall h s ix i a p,
  valid h s -> own_cut s ix -> positive (shape_of s) -> ok_index ix (shape_of s) -> slice_shape ix (shape_of s) <> [] ->
  safe_index s ix -> kept h s i a p ->
  exists b q rest, dm_slice_t s ix = Get b q rest.
Proof.
  intros h s ix i a p V Hc Hp Hok Hne Hs Hk. destruct s as [| | | | | |sh rd rsh rs ro d]; try contradiction.
  cbn [shape_of] in *. destruct (dm_cut_ok h sh rd rsh rs ro d ix V Hp Hok Hne Hs) as (nix & gs & ro' & rs' & di & rd' & Ec & En & Ee & C).
  destruct C as [C1 C2 C3 C4 C5 _ _ C6 C7 C8].
  assert (Vd : valid h d) by (destruct V as (f & g & Hd & _); now exists g).
  assert (Hsp : is_sparse d) by (destruct d; try contradiction; exact I).
  destruct (sparse_entries h d Vd Hsp) as (E & HE).
  destruct (slicing_ok h d (XTuple di) E HE C3 C4 C5) as (nix' & L & HS).
  destruct (entries_data h d E HE) as (db & Hdb & _).
  assert (HEne : E <> []).
  { intros ->. inversion Hk as [| |? ? ? ? ? HE0|? ? ? ? ? ? ? ? ? K]; subst; [destruct HE0|].
    destruct d; try contradiction; inversion K as [| |s0 d0 E0 i0 k0 HE0 _ Hk0|]; subst;
      assert (H0 : zlen E0 = zlen (@nil (list Z * pyval)))
        by (destruct HE0 as (_ & _ & _ & (? & _ & _ & A & _) & _), HE as (_ & _ & _ & (? & _ & _ & B & _) & _); rewrite zlen_map in A, B; congruence);
      cbn in H0; unfold zlen in *; cbn [length] in *; lia. }
  destruct (iad_reads h d E _ HE HEne C3 (sl_iad _ _ _ _ _ _ HS)) as (b & q & k & Eg).
  unfold dm_slice_t. rewrite Ec. cbn [pbind]. unfold slice_t, slice_view.
  rewrite (sl_normal _ _ _ _ _ _ HS). cbn [bind]. rewrite (sl_view _ _ _ _ _ _ HS), Hdb. cbn [bind pbind]. rewrite Eg. cbn [pbind]. eauto.
Qed.
Print Assumptions C124_reads_refuted.

Lemma csr_copy_reads h sh cr co db E : entries h (SCSR sh cr co db) E -> positive sh ->
  exists a p k, copy_t (SCSR sh cr co db) = Get a p k.
Proof.
  intros HE Hp. pose proof HE as (_ & Hl & _). destruct sh as [|n [|m [|? ?]]]; try discriminate.
  inversion Hp as [|? ? Hn Hp']; subst. inversion Hp' as [|? ? Hm _]; subst.
  assert (Z0 : forall n, 0 < n -> exists l, zseq n = 0 :: l).
  { intros x Hx. unfold zseq. replace (Z.to_nat x) with (S (Z.to_nat (x - 1))) by lia. eexists. reflexivity. }
  assert (H0 : in_box [0; 0] [n; m]) by (repeat constructor; lia).
  destruct (Z0 n Hn) as (l & El). destruct (Z0 m Hm) as (l' & El').
  unfold copy_t. cbn [shape_of cart]. rewrite El, El'. cbn [flat_map map app mapM_t get_value_t get_elem_t shape_of].
  rewrite (normalize_ints _ _ H0). cbn [pbind]. rewrite (is_element_ints [0; 0] [n; m] eq_refl).
  cbn [map int_items]. unfold flat_get_elem_t, flat_data_position_t, get_csr_position_t, buf_int_t, buf_get_t. cbn. eauto.
Qed.

(** So does a slice over CSR data that fixes all axes of a group, whatever is stored. *)
Theorem C124_row_reads_refuted : forall h s ix,
  valid h s -> row_cut s ix -> positive (shape_of s) -> ok_index ix (shape_of s) -> slice_shape ix (shape_of s) <> [] ->
  safe_index s ix ->
  exists b q rest, dm_row_t s ix = Get b q rest.
Proof.
  intros h s ix V Hc Hp Hok Hne Hs. destruct s as [| | | | | |sh rd rsh rs ro d]; try contradiction.
  cbn [shape_of] in *. destruct (dm_cut_ok h sh rd rsh rs ro d ix V Hp Hok Hne Hs) as (nix & gs & ro' & rs' & di & rd' & Ec & En & Ee & C).
  destruct C as [C1 C2 C3 C4 C5 _ _ C6 C7 C8].
  assert (Vd : valid h d) by (destruct V as (f & g & Hd & _); now exists g).
  destruct d as [| | | |dsh cr co db| |]; try contradiction.
  destruct (sparse_entries h _ Vd I) as (E & HE).
  destruct (csr_copy_reads h dsh cr co db E HE C3) as (b & q & k & Eg).
  unfold dm_row_t. rewrite Ec. cbn [pbind]. rewrite Eg. eauto.
Qed.
Print Assumptions C124_row_reads_refuted.

(** * Cases *)

(** grid[:], which selects all of [[1, 0, 2], [0, 3, 4]]. *)
Example C124_case :
  (built_dm [] grid_lists grid /\ sparse_based grid /\ own_cut grid everything /\ ok_index everything (shape_of grid)
   /\ slice_shape everything (shape_of grid) = shape_of grid /\ kept grid_lists grid [0; 0] 0 0)
  /\ exists t h', getitem grid_lists grid everything = Ok (ISto t, h') /\ addrs t = [3; 2]%nat /\ addrs grid = [0; 1]%nat
     /\ exists now, hput h' 0 1 (VInt 9) = Ok now /\ get_elem now grid [1; 1] = Ok (VInt 9) /\ get_elem now t [1; 1] = Ok (VInt 3).
Proof.
  split.
  - split; [exact grid_built|]. split; [exact I|]. split; [exact I|]. split; [split; [constructor; [discriminate|constructor]|right; cbn; lia]|].
    split; [reflexivity|]. apply k_dm. exact (k_sparse grid_lists grid_data (Buf 4 0 0 (VInt 0)) _ [0; 0] 0 grid_entries eq_refl ltac:(cbn; lia) eq_refl).
  - eexists _, _. split; [vm_compute; reflexivity|]. split; [vm_compute; reflexivity|]. split; [reflexivity|].
    eexists. split; [vm_compute; reflexivity|]. split; vm_compute; reflexivity.
Qed.

(** Row 1 of an array over CSR data. *)
Example C124_row_case :
  (valid sheet_lists sheet /\ positive (shape_of sheet) /\ safe_index sheet (row 1)) /\ row_cut sheet (row 1)
  /\ ok_index (row 1) (shape_of sheet) /\ slice_shape (row 1) (shape_of sheet) = [3]
  /\ exists b q rest, dm_row_t sheet (row 1) = Get b q rest /\ In b (addrs sheet).
Proof.
  destruct C123_row_case as (_ & _ & A1 & A2 & A3 & A4 & _).
  split; [exact A1|]. split; [exact A2|]. split; [exact A3|]. split; [exact A4|].
  eexists _, _, _. split; [vm_compute; reflexivity|]. vm_compute. tauto.
Qed.

(** Row 1 of [[1, 0, 2], [0, 3, 4]] over Strided data: what is assigned to the array
    later is seen in it. *)
Example C124_dense_case :
  exists s h, built_dm [] h s /\ dense_based s /\ ok_index (row 1) (shape_of s) /\ slice_shape (row 1) (shape_of s) = [3]
  /\ exists t, getitem h s (row 1) = Ok (ISto t, h) /\ addrs t = addrs s
     /\ exists now, hput h 0 4 (VInt 9) = Ok now /\ get_elem now s [1; 1] = Ok (VInt 9) /\ get_elem now t [1] = Ok (VInt 9).
Proof.
  eexists _, _. split; [|split; [|split; [|split; [|]]]].
  - eapply (built_seq [] (VSeq [VSeq [VInt 1; VInt 0; VInt 2]; VSeq [VInt 0; VInt 3; VInt 4]]) [2; 3] (Some (VInt 0)) None None CStrided).
    + repeat (split || constructor); cbn; discriminate.
    + repeat constructor; lia.
    + constructor; [reflexivity|discriminate|discriminate].
    + exact I.
    + discriminate.
    + vm_compute. reflexivity.
  - exact I.
  - exact (proj1 row_ok).
  - reflexivity.
  - eexists. split; [vm_compute; reflexivity|]. split; [reflexivity|].
    eexists. split; [vm_compute; reflexivity|]. split; vm_compute; reflexivity.
Qed.

(** C123: slices of DM arrays over sparse data that other threads assign to. *)
From Verif Require Import Py SliceTools Basics Storage Spec SliceFacts IndexFacts CompressFacts ReduceFacts SolverFacts
  SolveFacts Repr ReprFacts ViewFacts BuildFacts SparseFacts ConvFacts FromFacts MapFacts DMFacts ChainFacts ReadFacts WriteFacts RefineFacts
  PropRead PropWrite Threads ThreadFacts PropThreads PropRaces PropFlow Copies PropCopies Cuts PropCuts CutsDM.
From Coq Require Import List Permutation.
Import ListNotations.

(** A DM array over COO or FlatCOO data; or over CSR data, with an index that leaves
    free an axis of each group. *)
Definition own_cut (s : storage) (ix : pyindex) : Prop :=
  match s with
  | SDM _ _ _ _ _ (SCOO _ _ _) | SDM _ _ _ _ _ (SFlatCOO _ _ _) => True
  | SDM _ rd _ _ _ (SCSR _ _ _ _) =>
      forall g, In g rd -> exists a, In a g /\ nth (Z.to_nat a) (map is_int_ind (index_items ix)) false = false
  | _ => False
  end.
(** DM arrays over data of the same class. *)
Definition same_data (s s' : storage) : Prop :=
  match s, s' with SDM _ _ _ _ _ d, SDM _ _ _ _ _ d' => same_kind d d' | _, _ => False end.

(** What is needed of the numbers DM.__getitem__ computes. *)
Record cut_ok (sh : list Z) (rd : list (list Z)) (rs : list (list Z)) (ro : list Z) (d : storage) (ix : pyindex)
    (gshape ro' : list Z) (rs' : list (list Z)) (di : list ind) (rd' : list (list Z)) : Prop := {
  cut_items : di <> [];
  cut_shape : gshape = slice_shape ix sh;
  cut_positive : positive (shape_of d);
  cut_index : ok_index (XTuple di) (shape_of d);
  cut_axes : slice_shape (XTuple di) (shape_of d) <> [];
  cut_rank : (forall g, In g rd -> exists a, In a g /\ nth (Z.to_nat a) (map is_int_ind (index_items ix)) false = false) ->
     length (slice_shape (XTuple di) (shape_of d)) = length (shape_of d);
  cut_row : forall g, In g rd -> (forall a, In a g -> nth (Z.to_nat a) (map is_int_ind (index_items ix)) false = true) ->
     (length (slice_shape (XTuple di) (shape_of d)) < length (shape_of d))%nat;
  cut_made : forall d', mk_dm gshape rd' rs' ro' d' = Ok (SDM gshape rd' (map (gather gshape) rd') rs' ro' d');
  cut_dm : dm_ok gshape rd' (map (gather gshape) rd') rs' ro' (slice_shape (XTuple di) (shape_of d));
  cut_source : forall j, in_box j gshape ->
     source_index (XTuple di) (shape_of d) (dm_index rd' rs' ro' j) = dm_index rd rs ro (source_index ix sh j) }.

Lemma dm_cut_ok h sh rd rsh rs ro d ix : valid h (SDM sh rd rsh rs ro d) -> positive sh -> ok_index ix sh ->
  slice_shape ix sh <> [] -> safe_index (SDM sh rd rsh rs ro d) ix ->
  exists nix gshape ro' rs' di rd', dm_cut (SDM sh rd rsh rs ro d) ix = Ok (gshape, ro', rs', di, rd')
    /\ normalize_index ix sh = Ok nix /\ is_element_index nix sh = false
    /\ cut_ok sh rd rs ro d ix gshape ro' rs' di rd'.
Proof.
  intros (f & g & Hd & Hdm & Hf) Hp Hok Hne [Hs1 _].
  pose proof Hok as [Hitems _]. set (items := index_items ix) in *.
  set (nix := norm_items items sh).
  assert (Hn : normal_index nix sh) by now apply norm_items_normal.
  assert (Es : n_shape nix sh = slice_shape ix sh) by now apply norm_items_shape.
  pose proof Hdm as [Dn Dg Dp Drs Dst Dro Dbox Dinj].
  assert (Haxes : axes_in (zlen sh) (concat rd)) by now apply perm_axes.
  assert (Eel : is_element_index nix sh = false).
  { apply not_true_iff_false. intros E. apply element_n_shape in E; [|exact Hn]. congruence. }
  unfold dm_cut. rewrite normalize_index_ok by assumption. fold items nix. cbn [bind]. rewrite Eel. cbn [negb assert_ bind].
  rewrite normal_index_id by assumption. cbn [bind].
  rewrite shape_strided_ok by assumption. cbn [bind]. rewrite Drs.
  rewrite dm_slice_groups_ok by assumption. cbn [bind].
  pose proof (slice_groups_lengths nix sh rd rs ro Dst Dro) as L.
  pose proof (slice_groups_strides nix sh Hn rd rs ro Haxes Dst Dro) as S.
  pose proof (fun j Hj => slice_groups_index nix sh j Hp Hn Hj rd rs ro (shape_of d) Haxes Dst) as X.
  assert (Ho0 : Forall2 (fun g o => DMFacts.kept nix g = [] -> o = 0) rd ro).
  { assert (Hs1' : Forall2 (fun g o => axes_in (zlen sh) g ->
             group_fixed (map is_int_ind items) g = true -> o = 0) rd ro).
    { clear - Hs1. induction Hs1; constructor; auto. }
    clear - Hs1' Haxes. induction Hs1' as [|g o gs os H1 H2 IH]; [constructor|].
    cbn [concat] in Haxes. apply Forall_app in Haxes. destruct Haxes as [A1 A2]. constructor; [|now apply IH].
    intros E. apply H1; [exact A1|]. rewrite (group_fixed_kept items sh g A1). fold nix. now rewrite E. }
  set (origin := map (fun _ : Z => 0) sh).
  assert (Horigin : in_box origin sh).
  { unfold origin. clear - Hp. induction Hp; cbn [map]; constructor; auto. lia. }
  assert (Hpd : positive (shape_of d)) by exact (in_box_positive _ _ (Dbox _ Horigin)).
  assert (Hld : length (shape_of d) = length rd).
  { rewrite <- (in_box_len _ _ (Dbox _ Horigin)). clear - Dst Dro. revert ro Dro.
    induction Dst as [|g st gs sts H1 H2 IH]; intros [|o os] Ho; cbn in Ho; try lia; cbn [dm_index length]; [reflexivity|].
    rewrite IH; lia. }
  specialize (fun j Hj => X j Hj Ho0 (Dbox _ (n_source_in_box nix sh j Hp Hn Hj))).
  destruct (slice_groups nix sh rd rs ro) as [[[ro' rs'] di] rd'].
  destruct L as (L1 & L2 & L3 & L4 & L5 & L6).
  assert (Hrd' : Permutation (concat rd') (zseq (zlen (n_shape nix sh)))).
  { rewrite L3. assert (C : forall l : list (list Z), concat (filter (fun t => match t with [] => false | _ => true end) l) = concat l).
    { induction l as [|[|z l0] l IHl]; cbn [filter concat app]; auto. now rewrite IHl. }
    rewrite C. now apply kept_perm. }
  assert (Hrdne : rd' <> []).
  { intros ->. cbn [concat] in Hrd'. apply Permutation_length in Hrd'. rewrite zseq_length_nat in Hrd'.
    rewrite Es in Hrd'. destruct (slice_shape ix sh); [congruence|]. unfold zlen in Hrd'. cbn [length] in Hrd'. lia. }
  exists nix, (n_shape nix sh), ro', rs', di, rd'. split; [reflexivity|]. split; [reflexivity|]. split; [exact Eel|]. constructor.
  - intros ->. cbn in L2. destruct rd; [congruence|discriminate].
  - exact Es.
  - exact Hpd.
  - split; [|right; cbn [index_items]; lia]. cbn [index_items]. eapply Forall_impl; [|exact L5].
    intros [| | |]; cbn; tauto.
  - unfold slice_shape. cbn [index_items]. intros E. specialize (L6 (shape_of d) Hld). rewrite E in L6.
    destruct rd'; [congruence|discriminate].
  - intros Hfree. unfold slice_shape. cbn [index_items]. rewrite (L6 (shape_of d) Hld), Hld, L3.
    assert (Hk : forall g, In g rd -> DMFacts.kept nix g <> []).
    { intros g0 Hg E0. destruct (Hfree g0 Hg) as (a & Ha & Hna).
      assert (A : axes_in (zlen sh) g0).
      { apply Forall_forall. intros x Hx. unfold axes_in in Haxes. rewrite Forall_forall in Haxes. apply Haxes.
        apply in_concat. now exists g0. }
      pose proof (group_fixed_kept items sh g0 A) as G. fold nix in G. rewrite E0 in G. unfold group_fixed in G.
      rewrite forallb_forall in G. specialize (G a Ha). fold items in Hna. congruence. }
    clear - Hk. induction rd as [|g0 gs IH]; [reflexivity|]. cbn [map filter].
    destruct (DMFacts.kept nix g0) eqn:E0; [exfalso; apply (Hk g0); [now left|exact E0]|].
    cbn [length]. f_equal. apply IH. intros g Hg. apply Hk. now right.
  - intros g0 Hg Hfix. unfold slice_shape. cbn [index_items]. rewrite (L6 (shape_of d) Hld), Hld, L3.
    assert (Hk : DMFacts.kept nix g0 = []).
    { assert (A : axes_in (zlen sh) g0).
      { apply Forall_forall. intros x Hx. unfold axes_in in Haxes. rewrite Forall_forall in Haxes. apply Haxes.
        apply in_concat. now exists g0. }
      pose proof (group_fixed_kept items sh g0 A) as G. fold nix in G. unfold group_fixed in G.
      destruct (DMFacts.kept nix g0); [reflexivity|]. fold items in Hfix. rewrite (proj2 (forallb_forall (fun a => nth (Z.to_nat a) (map is_int_ind items) false) g0) Hfix) in G. discriminate. }
    clear - Hk Hg. assert (Le : forall l : list (list Z), (length (filter (fun t => match t with [] => false | _ => true end) (map (DMFacts.kept nix) l)) <= length l)%nat).
    { intros l. rewrite <- (map_length (DMFacts.kept nix) l). generalize (map (DMFacts.kept nix) l) as m.
      induction m as [|[|x t] m IHm]; cbn [filter length]; lia. }
    induction rd as [|g1 gs IH]; [destruct Hg|]. cbn [map filter]. destruct Hg as [<-|Hg].
    + rewrite Hk. cbn [length]. specialize (Le gs). lia.
    + specialize (IH Hg). destruct (DMFacts.kept nix g1); cbn [length]; lia.
  - intros d'. now apply mk_dm_ok.
  - constructor; auto.
    + now apply n_shape_nonneg.
    + intros j Hj. apply X. exact Hj.
    + intros j j' Hj Hj' Hjj. apply (n_source_inj nix sh j j' Hn Hj Hj').
      apply Dinj; try (apply n_source_in_box; assumption).
      rewrite <- (proj2 (X j Hj)), <- (proj2 (X j' Hj')). now rewrite Hjj.
  - intros j Hj. unfold source_index at 1. cbn [index_items].
    rewrite (proj2 (X j Hj)). f_equal. unfold source_index. fold items. apply norm_items_source; auto.
    unfold slice_shape in Es. fold items in Es. now rewrite <- Es.
Qed.

Lemma own_csr h sh cr co d sh' : valid h (SCSR sh cr co d) -> length sh' = length sh -> own_slice (SCSR sh cr co d) sh'.
Proof. intros (f & E & (_ & Hl & _) & _) H. cbn. now rewrite H. Qed.

(** Nothing in between: the reads followed by the construction are [s[ix]]. *)
Theorem C123_alone : forall h s ix,
  valid h s -> own_cut s ix -> positive (shape_of s) -> ok_index ix (shape_of s) -> slice_shape ix (shape_of s) <> [] ->
  safe_index s ix ->
  exists E s' h', run (dm_slice_t s ix) h = (h, Ok E) /\ dm_slice_of s ix E h = Ok (s', h') /\ getitem h s ix = Ok (ISto s', h').
Proof.
  intros h s ix V Hc Hp Hok Hne Hs. destruct s as [| | | | | |sh rd rsh rs ro d]; try contradiction.
  cbn [shape_of] in *. destruct (dm_cut_ok h sh rd rsh rs ro d ix V Hp Hok Hne Hs) as (nix & gs & ro' & rs' & di & rd' & Ec & En & Ee & C).
  destruct C as [C1 C2 C3 C4 C5 CR _ C6 C7 C8].
  assert (Vd : valid h d) by (destruct V as (f & g & Hd & _); now exists g).
  assert (Ho : own_slice d (slice_shape (XTuple di) (shape_of d))) by (destruct d; try contradiction; try exact I; exact (own_csr _ _ _ _ _ _ Vd (CR Hc))).
  destruct (C113_alone h d (XTuple di) Vd Ho C3 C4 C5) as (E & d' & h' & R1 & R2 & R3).
  exists E, (SDM gs rd' (map (gather gs) rd') rs' ro' d'), h'. unfold dm_slice_t, dm_slice_of. rewrite Ec. cbn [pbind bind].
  split; [exact R1|]. rewrite R2. cbn [bind]. rewrite C6. split; [reflexivity|].
  unfold dm_cut in Ec. cbn [getitem]. rewrite En in *. cbn [bind] in *. rewrite Ee in *. cbn [negb assert_ bind] in Ec.
  destruct (normalize_index (XTuple (map nind_to_ind nix)) sh) as [nix'|]; [|discriminate]. cbn [bind] in *.
  destruct (shape_strided nix' sh) as [gs'|]; [|discriminate]. cbn [bind] in *.
  destruct (dm_slice_groups nix' (axis_map nix' 0) rd rsh rs ro) as [[[[ro1 rs1] di1] rd1]|]; [|discriminate]. cbn [bind] in *.
  injection Ec as -> -> -> -> ->. destruct di as [|i0 di0]; [congruence|]. rewrite R3. cbn [bind]. rewrite C6. reflexivity.
Qed.
Print Assumptions C123_alone.

(** One thread takes the slice [s[ix]] while the others perform [programs].  No
    thread fails; the new array has the shape and unspecified value of the slice,
    shares no list with any array, and each of its elements is a value that element
    of [s] may have had at some time (as in C100). *)
Theorem C123_values : forall programs h sched h' r rs s ix,
  Forall (Forall (flow_op h)) programs -> indices_untouched programs ->
  valid h s -> own_cut s ix -> positive (shape_of s) -> ok_index ix (shape_of s) -> slice_shape ix (shape_of s) <> [] ->
  safe_index s ix -> (forall a, In a (index_addrs s) -> untouched programs a) ->
  exec sched h (dm_slice_t s ix :: map unlabelled (map thread programs)) = (h', Ret r :: map Ret rs) ->
  (exists E s' h'', r = Ok E /\ dm_slice_of s ix E h' = Ok (s', h'')
     /\ same_data s s' /\ shape_of s' = slice_shape ix (shape_of s) /\ unspecified_of s' = unspecified_of s
     /\ extends h' h'' /\ fresh h' s' /\ valid h'' s'
     /\ forall j, in_box j (slice_shape ix (shape_of s)) ->
          exists x, gives h (possible h programs) s (source_index ix (shape_of s) j) x /\ get_elem h'' s' j = Ok x)
  /\ Forall2 (fun ops r => exists xs, r = Ok (map (fun x => ([], x)) xs) /\ reads_give (gives h (possible h programs)) ops xs) programs rs.
Proof.
  intros programs h sched h' r rs s ix F HI V Hc Hp Hok Hne Hs Hu H. destruct s as [| | | | | |sh rd rsh rst ro d]; try contradiction.
  cbn [shape_of] in *. destruct (dm_cut_ok h sh rd rsh rst ro d ix V Hp Hok Hne Hs) as (nix & gs & ro' & rs' & di & rd' & Ec & En & Ee & C).
  destruct C as [C1 C2 C3 C4 C5 CR _ C6 C7 C8].
  assert (Vd : valid h d) by (destruct V as (f & g & Hd & _); now exists g).
  assert (Ho : own_slice d (slice_shape (XTuple di) (shape_of d))) by (destruct d; try contradiction; try exact I; exact (own_csr _ _ _ _ _ _ Vd (CR Hc))).
  unfold dm_slice_t in H. rewrite Ec in H. cbn [pbind] in H. cbn [index_addrs] in Hu.
  destruct (C113_values programs h sched h' r rs d (XTuple di) F HI Vd Ho C3 C4 C5 Hu H)
    as [(E & d' & h'' & E1 & E2 & E3 & E4 & E5 & E6 & E7 & E8 & E9) X].
  split; [|exact X]. exists E, (SDM gs rd' (map (gather gs) rd') rs' ro' d'), h''. split; [exact E1|].
  split. { unfold dm_slice_of. rewrite Ec. cbn [bind]. rewrite E2. cbn [bind]. now rewrite C6. }
  split; [exact E3|].
  split; [exact C2|]. split; [exact E5|]. split; [exact E6|]. split; [exact E7|].
  destruct E8 as (g & Hg).
  assert (Hr : repr h'' (SDM gs rd' (map (gather gs) rd') rs' ro' d') (fun j => g (dm_index rd' rs' ro' j))).
  { cbn [repr]. exists g. split; [exact Hg|]. split; [now rewrite E4|reflexivity]. }
  split; [eexists; exact Hr|]. intros j Hj. rewrite <- C2 in Hj.
  pose proof (dm_box _ _ _ _ _ _ C7 j Hj) as Hb.
  destruct (E9 _ Hb) as (x & Hx & Ex). exists x. split.
  - rewrite (C8 j Hj) in Hx. destruct Hx as [(a & p & Kp & P)|[Kn ->]].
    + left. exists a, p. split; [now constructor|exact P].
    + right. split; [|reflexivity]. intros a p K. inversion K as [| |? ? ? ? ? HE|]; subst; [destruct HE|]. now apply (Kn a p).
  - rewrite (repr_get _ _ _ _ Hr Hj). rewrite <- E4 in Hb. rewrite (repr_get _ _ _ _ Hg Hb) in Ex. exact Ex.
Qed.
Print Assumptions C123_values.

(** If no thread assigns to an element of [s] that the slice selects, the slice is
    the one taken before the threads start. *)
Theorem C123_quiet : forall programs h sched h' r rs s ix,
  Forall (Forall (flow_op h)) programs -> indices_untouched programs ->
  valid h s -> own_cut s ix -> positive (shape_of s) -> ok_index ix (shape_of s) -> slice_shape ix (shape_of s) <> [] ->
  safe_index s ix -> (forall a, In a (index_addrs s) -> untouched programs a) ->
  (forall t ix' value j a p i, stated programs (Assign t ix' value) -> in_box j (slice_shape ix' (shape_of t)) ->
     kept h t (source_index ix' (shape_of t) j) a p -> in_box i (slice_shape ix (shape_of s)) ->
     ~ kept h s (source_index ix (shape_of s) i) a p) ->
  exec sched h (dm_slice_t s ix :: map unlabelled (map thread programs)) = (h', Ret r :: map Ret rs) ->
  exists E s' h'', r = Ok E /\ dm_slice_of s ix E h' = Ok (s', h'')
    /\ forall j, in_box j (slice_shape ix (shape_of s)) ->
         get_elem h'' s' j = get_elem h s (source_index ix (shape_of s) j).
Proof.
  intros programs h sched h' r rs s ix F HI V Ho Hp Hok Hne Hs Hu Hq H.
  destruct (C123_values programs h sched h' r rs s ix F HI V Ho Hp Hok Hne Hs Hu H)
    as [(E & s' & h'' & E1 & E2 & _ & _ & _ & _ & _ & _ & E3) _].
  exists E, s', h''. split; [exact E1|]. split; [exact E2|]. intros j Hj. destruct (E3 j Hj) as (x & Hx & ->). symmetry.
  assert (Hi : in_box (source_index ix (shape_of s) j) (shape_of s)) by now apply source_index_in_box.
  destruct Hx as [(a & p & Kp & P)|[Kp ->]].
  - rewrite (get_kept h s _ a p V Hi Kp). destruct P as [a p x P|? ? ? ? ? ? ? S B K'|? ? ? ? ? ? ? ? ? S B K'|? ? ? ? ? ? S B K'];
      [exact P| | |]; exfalso; exact (Hq _ _ _ _ _ _ j S B K' Hj Kp).
  - now rewrite (get_unkept h s _ V Hi Kp).
Qed.
Print Assumptions C123_quiet.

(** The arrays that fromobject and as_DM make have offset zero: every index is safe. *)
Theorem C123_built : forall h0 h s ix, built_dm h0 h s -> ok_index ix (shape_of s) -> slice_shape ix (shape_of s) <> [] ->
  valid h s /\ positive (shape_of s) /\ safe_index s ix.
Proof.
  intros h0 h s ix B Hok Hne. destruct (built_dm_ok h0 h s B) as (f & Hr & Hz & Hdm & Hp).
  split; [now exists f|]. split; [exact Hp|].
  apply (safe_zero s h f ix Hr Hz Hp Hok Hne). intros b ->. exact Hdm.
Qed.
Print Assumptions C123_built.

(** * Rows and columns over CSR data *)

(** A DM array over CSR data, with an index that fixes all axes of a group. *)
Definition row_cut (s : storage) (ix : pyindex) : Prop :=
  match s with
  | SDM _ rd _ _ _ (SCSR _ _ _ _) =>
      exists g, In g rd /\ forall a, In a g -> nth (Z.to_nat a) (map is_int_ind (index_items ix)) false = true
  | _ => False
  end.

Lemma row_length h sh cr co d (sh' : list Z) : valid h (SCSR sh cr co d) -> sh' <> [] -> (length sh' < length sh)%nat -> length sh' = 1%nat.
Proof. intros (f & E & (_ & Hl & _) & _) Hn H. rewrite Hl in H. destruct sh' as [|x [|y r]]; cbn in *; [congruence|reflexivity|lia]. Qed.

Theorem C123_row_alone : forall h s ix,
  valid h s -> row_cut s ix -> positive (shape_of s) -> ok_index ix (shape_of s) -> slice_shape ix (shape_of s) <> [] ->
  safe_index s ix ->
  exists xs s' h', run (dm_row_t s ix) h = (h, Ok xs) /\ dm_row_of s ix xs h = Ok (s', h') /\ getitem h s ix = Ok (ISto s', h').
Proof.
  intros h s ix V Hc Hp Hok Hne Hs. destruct s as [| | | | | |sh rd rsh rs ro d]; try contradiction.
  cbn [shape_of] in *. destruct (dm_cut_ok h sh rd rsh rs ro d ix V Hp Hok Hne Hs) as (nix & gs & ro' & rs' & di & rd' & Ec & En & Ee & C).
  destruct C as [C1 C2 C3 C4 C5 _ CR C6 C7 C8].
  assert (Vd : valid h d) by (destruct V as (f & g & Hd & _); now exists g).
  assert (Hd : is_class CCSR d /\ length (slice_shape (XTuple di) (shape_of d)) = 1%nat).
  { destruct d; try contradiction. destruct Hc as (g & Hg & Hf). split; [exact I|]. exact (row_length _ _ _ _ _ _ Vd C5 (CR g Hg Hf)). }
  destruct Hd as [Hd Hl].
  destruct (C113_row_alone h d (XTuple di) Vd Hd C3 C4 Hl) as (xs & c & h1 & d' & h' & R1 & R2 & R3 & R4).
  exists xs, (SDM gs rd' (map (gather gs) rd') rs' ro' d'), h'. unfold dm_row_t, dm_row_of. rewrite Ec. cbn [pbind bind].
  split; [exact R1|]. rewrite R2. cbn [bind]. rewrite R3. cbn [bind]. rewrite C6. split; [reflexivity|].
  unfold dm_cut in Ec. cbn [getitem]. rewrite En in *. cbn [bind] in *. rewrite Ee in *. cbn [negb assert_ bind] in Ec.
  destruct (normalize_index (XTuple (map nind_to_ind nix)) sh) as [nix'|]; [|discriminate]. cbn [bind] in *.
  destruct (shape_strided nix' sh) as [gs'|]; [|discriminate]. cbn [bind] in *.
  destruct (dm_slice_groups nix' (axis_map nix' 0) rd rsh rs ro) as [[[[ro1 rs1] di1] rd1]|]; [|discriminate]. cbn [bind] in *.
  injection Ec as -> -> -> -> ->. destruct di as [|i0 di0]; [congruence|]. rewrite R4. cbn [bind]. rewrite C6. reflexivity.
Qed.
Print Assumptions C123_row_alone.

Theorem C123_row : forall programs h sched h' r rs s ix,
  Forall (Forall (flow_op h)) programs -> indices_untouched programs ->
  valid h s -> row_cut s ix -> positive (shape_of s) -> ok_index ix (shape_of s) -> slice_shape ix (shape_of s) <> [] ->
  safe_index s ix -> (forall a, In a (index_addrs s) -> untouched programs a) ->
  exec sched h (dm_row_t s ix :: map thread programs) = (h', Ret r :: map Ret rs) ->
  exists xs s' h'', r = Ok xs /\ dm_row_of s ix xs h' = Ok (s', h'')
    /\ same_data s s' /\ shape_of s' = slice_shape ix (shape_of s) /\ unspecified_of s' = unspecified_of s
    /\ extends h' h'' /\ fresh h' s' /\ valid h'' s'
    /\ forall j, in_box j (slice_shape ix (shape_of s)) ->
         exists x, gives h (possible h programs) s (source_index ix (shape_of s) j) x /\ get_elem h'' s' j = Ok x.
Proof.
  intros programs h sched h' r rs s ix F HI V Hc Hp Hok Hne Hs Hu H. destruct s as [| | | | | |sh rd rsh rst ro d]; try contradiction.
  cbn [shape_of] in *. destruct (dm_cut_ok h sh rd rsh rst ro d ix V Hp Hok Hne Hs) as (nix & gs & ro' & rs' & di & rd' & Ec & En & Ee & C).
  destruct C as [C1 C2 C3 C4 C5 _ CR C6 C7 C8].
  assert (Vd : valid h d) by (destruct V as (f & g & Hd & _); now exists g).
  assert (Hd : is_class CCSR d /\ length (slice_shape (XTuple di) (shape_of d)) = 1%nat).
  { destruct d; try contradiction. destruct Hc as (g & Hg & Hf). split; [exact I|]. exact (row_length _ _ _ _ _ _ Vd C5 (CR g Hg Hf)). }
  destruct Hd as [Hd Hl].
  unfold dm_row_t in H. rewrite Ec in H. cbn [pbind] in H. cbn [index_addrs] in Hu.
  destruct (C113_row programs h sched h' r rs d (XTuple di) F HI Vd Hd C3 C4 Hl Hu H)
    as (xs & c & h1 & d' & h'' & E1 & E2 & E0 & E3 & E4 & E5 & E6 & E7 & E8 & E9).
  exists xs, (SDM gs rd' (map (gather gs) rd') rs' ro' d'), h''. split; [exact E1|].
  split. { unfold dm_row_of. rewrite Ec. cbn [bind]. rewrite E2. cbn [bind]. rewrite E0. cbn [bind]. now rewrite C6. }
  split. { destruct d; try contradiction; destruct d'; try contradiction. cbn [same_data same_kind]. cbn [shape_of] in E4, Hl. rewrite E4. exact Hl. }
  split; [exact C2|]. split; [exact E5|]. split; [exact E6|]. split; [exact E7|].
  destruct E8 as (g & Hg).
  assert (Hr : repr h'' (SDM gs rd' (map (gather gs) rd') rs' ro' d') (fun j => g (dm_index rd' rs' ro' j))).
  { cbn [repr]. exists g. split; [exact Hg|]. split; [now rewrite E4|reflexivity]. }
  split; [eexists; exact Hr|]. intros j Hj. rewrite <- C2 in Hj.
  pose proof (dm_box _ _ _ _ _ _ C7 j Hj) as Hb.
  destruct (E9 _ Hb) as (x & Hx & Ex). exists x. split.
  - rewrite (C8 j Hj) in Hx. destruct Hx as [(a & p & Kp & P)|[Kn ->]].
    + left. exists a, p. split; [now constructor|exact P].
    + right. split; [|reflexivity]. intros a p K. inversion K as [| |? ? ? ? ? HE|]; subst; [destruct HE|]. now apply (Kn a p).
  - rewrite (repr_get _ _ _ _ Hr Hj). rewrite <- E4 in Hb. rewrite (repr_get _ _ _ _ Hg Hb) in Ex. exact Ex.
Qed.
Print Assumptions C123_row.

Theorem C123_row_quiet : forall programs h sched h' r rs s ix,
  Forall (Forall (flow_op h)) programs -> indices_untouched programs ->
  valid h s -> row_cut s ix -> positive (shape_of s) -> ok_index ix (shape_of s) -> slice_shape ix (shape_of s) <> [] ->
  safe_index s ix -> (forall a, In a (index_addrs s) -> untouched programs a) ->
  (forall t ix' value j a p i, stated programs (Assign t ix' value) -> in_box j (slice_shape ix' (shape_of t)) ->
     kept h t (source_index ix' (shape_of t) j) a p -> in_box i (slice_shape ix (shape_of s)) ->
     ~ kept h s (source_index ix (shape_of s) i) a p) ->
  exec sched h (dm_row_t s ix :: map thread programs) = (h', Ret r :: map Ret rs) ->
  exists xs s' h'', r = Ok xs /\ dm_row_of s ix xs h' = Ok (s', h'')
    /\ forall j, in_box j (slice_shape ix (shape_of s)) ->
         get_elem h'' s' j = get_elem h s (source_index ix (shape_of s) j).
Proof.
  intros programs h sched h' r rs s ix F HI V Ho Hp Hok Hne Hs Hu Hq H.
  destruct (C123_row programs h sched h' r rs s ix F HI V Ho Hp Hok Hne Hs Hu H)
    as (E & s' & h'' & E1 & E2 & _ & _ & _ & _ & _ & _ & E3).
  exists E, s', h''. split; [exact E1|]. split; [exact E2|]. intros j Hj. destruct (E3 j Hj) as (x & Hx & ->). symmetry.
  assert (Hi : in_box (source_index ix (shape_of s) j) (shape_of s)) by now apply source_index_in_box.
  destruct Hx as [(a & p & Kp & P)|[Kp ->]].
  - rewrite (get_kept h s _ a p V Hi Kp). destruct P as [a p x P|? ? ? ? ? ? ? S B K'|? ? ? ? ? ? ? ? ? S B K'|? ? ? ? ? ? S B K'];
      [exact P| | |]; exfalso; exact (Hq _ _ _ _ _ _ j S B K' Hj Kp).
  - now rewrite (get_unkept h s _ V Hi Kp).
Qed.
Print Assumptions C123_row_quiet.

(** Every index is of one kind or the other. *)
Theorem C123_either : forall sh rd rsh rs ro d ix, is_sparse d ->
  own_cut (SDM sh rd rsh rs ro d) ix \/ row_cut (SDM sh rd rsh rs ro d) ix.
Proof.
  intros sh rd rsh rs ro d ix Hd. destruct d as [| |? ? ?|? ? ?|? ? ? ?| |]; try contradiction; [left; exact I|left; exact I|].
  cbn [own_cut row_cut]. induction rd as [|g gs [IH|(g0 & Hg & Hf)]]; [left; intros g []| |].
  - destruct (forallb (fun a => nth (Z.to_nat a) (map is_int_ind (index_items ix)) false) g) eqn:E.
    + right. exists g. split; [now left|]. now apply forallb_forall.
    + left. intros g' [<-|Hg']; [|now apply IH]. clear - E. induction g as [|a g IHg]; [discriminate|]. cbn [forallb] in E.
      destruct (nth (Z.to_nat a) (map is_int_ind (index_items ix)) false) eqn:Ea; [|exists a; split; [now left|exact Ea]].
      destruct (IHg E) as (b & Hb & Eb). exists b. split; [now right|exact Eb].
  - right. exists g0. split; [now right|exact Hf].
Qed.
Print Assumptions C123_either.

(** * Cases *)

(** The array [[1, 0, 2], [0, 3, 4]] as DM.fromobject(.., dimensions=(1, 0),
    partitioning=(1,), storage_class=COO, unspecified=0) makes it. *)
Definition grid_lists : heap := [map VInt [1; 3; 2; 4]; map VInt [0; 1; 2; 2; 0; 1; 0; 1]].
Definition grid_data : storage :=
  SCOO [3; 2] (Str [2; 4] [4; 1] (Buf 8 0 1 VNone)) (Buf 4 0 0 (VInt 0)).
Definition grid : storage := SDM [2; 3] [[1]; [0]] [[3]; [2]] [[1]; [1]] [0; 0] grid_data.
Definition row (k : Z) : pyindex := XItem (IInt k).

Lemma grid_entries : entries grid_lists grid_data [([0; 0], VInt 1); ([1; 1], VInt 3); ([2; 0], VInt 2); ([2; 1], VInt 4)].
Proof.
  split; [repeat constructor; lia|]. split; [discriminate|]. split; [split; [repeat constructor; cbn; lia|repeat constructor; cbn; lia]|].
  split; [eexists; repeat split; try reflexivity; cbn; lia|]. split; [reflexivity|]. split; [reflexivity|].
  split; [eexists; repeat split; try reflexivity; cbn; lia|]. split; [discriminate|reflexivity].
Qed.
Lemma grid_data_valid : valid grid_lists grid_data.
Proof. exact (ex_intro _ _ (repr_entries _ _ _ grid_entries)). Qed.
Lemma grid_built : built_dm [] grid_lists grid.
Proof.
  eapply (built_seq [] (VSeq [VSeq [VInt 1; VInt 0; VInt 2]; VSeq [VInt 0; VInt 3; VInt 4]]) [2; 3] (Some (VInt 0)) (Some [1; 0]) (Some [1]) CCOO).
  - repeat (split || constructor); cbn; discriminate.
  - repeat constructor; lia.
  - constructor; [reflexivity| |]; intros p [= <-]; [apply perm_swap|]. split; [repeat constructor|repeat constructor; cbn; lia].
  - exact I.
  - discriminate.
  - vm_compute. reflexivity.
Qed.
Lemma row_ok : ok_index (row 1) (shape_of grid) /\ slice_shape (row 1) (shape_of grid) <> [].
Proof. split; [split; [repeat constructor; cbn; try lia; discriminate|right; cbn; lia]|discriminate]. Qed.

(** Row 1 is taken while another thread assigns to the COO array that keeps the
    data: it has one value from before and one from after the assignment. *)
Example C123_case :
  let programs := [[Assign grid_data everything (SrcSeq (VSeq [VSeq [VInt 10; VInt 20]; VSeq [VInt 30; VInt 40]; VSeq [VInt 50; VInt 60]]))]] in
  Forall (Forall (flow_op grid_lists)) programs /\ indices_untouched programs
  /\ (valid grid_lists grid /\ positive (shape_of grid) /\ safe_index grid (row 1)) /\ own_cut grid (row 1)
  /\ (ok_index (row 1) (shape_of grid) /\ slice_shape (row 1) (shape_of grid) <> [])
  /\ (forall a, In a (index_addrs grid) -> untouched programs a)
  /\ exists sched h' E s' h'', exec sched grid_lists (dm_slice_t grid (row 1) :: map unlabelled (map thread programs)) = (h', [Ret (Ok E); Ret (Ok [])])
     /\ dm_slice_of grid (row 1) E h' = Ok (s', h'') /\ map (get_elem h'' s') [[0]; [1]; [2]] = map Ok (map VInt [0; 3; 60]).
Proof.
  cbv zeta. match goal with |- _ /\ indices_untouched ?P /\ _ => set (programs := P) end.
  assert (U : forall t ix value, stated programs (Assign t ix value) -> t = grid_data).
  { intros t ix value (ops & [<-|[]] & [Ho|[]]). now injection Ho as <- _ _. }
  split; [|split; [|split; [|split; [|split; [|split]]]]].
  - constructor; [|constructor]. constructor; [|constructor]. split; [exact grid_data_valid|]. split; [repeat constructor; lia|].
    split; [split; [constructor; [discriminate|constructor]|right; cbn; lia]|]. split; [split; [exact I|discriminate]|].
    repeat (split || constructor); cbn; discriminate.
  - intros o s a (ops & [<-|[]] & [<-|[]]) [<-|[]] Ha t ix value Hs. rewrite (U _ _ _ Hs). cbn in Ha. destruct Ha as [<-|[]]. discriminate.
  - destruct row_ok. now apply (C123_built [] grid_lists grid (row 1) grid_built).
  - exact I.
  - exact row_ok.
  - intros a Ha t ix value Hs. rewrite (U _ _ _ Hs). cbn in Ha. destruct Ha as [<-|[]]. discriminate.
  - eexists (repeat 0 9 ++ repeat 1 80 ++ repeat 0 40)%nat, _, _, _, _. split; [vm_compute; reflexivity|]. split; [vm_compute; reflexivity|]. vm_compute. reflexivity.
Qed.

(** The other thread assigns to row 0 of the COO array, which keeps column 0. *)
Example C123_quiet_case :
  let programs := [[Assign grid_data (row 0) (SrcSeq (VSeq (map VInt [7; 8])))]] in
  Forall (Forall (flow_op grid_lists)) programs /\ indices_untouched programs
  /\ (forall a, In a (index_addrs grid) -> untouched programs a)
  /\ (forall t ix' value j a p i, stated programs (Assign t ix' value) -> in_box j (slice_shape ix' (shape_of t)) ->
       kept grid_lists t (source_index ix' (shape_of t) j) a p -> in_box i (slice_shape (row 1) (shape_of grid)) ->
       ~ kept grid_lists grid (source_index (row 1) (shape_of grid) i) a p)
  /\ exists sched h' rs, exec sched grid_lists (dm_slice_t grid (row 1) :: map unlabelled (map thread programs))
       = (h', Ret (Ok [([1], VInt 3); ([2], VInt 4)]) :: map Ret rs).
Proof.
  cbv zeta. match goal with |- _ /\ indices_untouched ?P /\ _ => set (programs := P) end.
  assert (U : forall t ix value, stated programs (Assign t ix value) -> t = grid_data /\ ix = row 0).
  { intros t ix value (ops & [<-|[]] & [Ho|[]]). injection Ho as <- <- _. now split. }
  split; [|split; [|split; [|split]]].
  - constructor; [|constructor]. constructor; [|constructor]. split; [exact grid_data_valid|]. split; [repeat constructor; lia|].
    split; [split; [repeat constructor; cbn; try lia; discriminate|right; cbn; lia]|]. split; [split; [exact I|discriminate]|].
    repeat (split || constructor); cbn; discriminate.
  - intros o s a (ops & [<-|[]] & [<-|[]]) [<-|[]] Ha t ix value Hs. destruct (U _ _ _ Hs) as [-> _]. cbn in Ha. destruct Ha as [<-|[]]. discriminate.
  - intros a Ha t ix value Hs. destruct (U _ _ _ Hs) as [-> _]. cbn in Ha. destruct Ha as [<-|[]]. discriminate.
  - intros t ix' value j a p i Hs Hj Hk Hi Hk2. destruct (U _ _ _ Hs) as [-> ->].
    change (in_box j [2]) in Hj. change (in_box i [3]) in Hi. apply box1 in Hj as (x & -> & Hx). apply box1 in Hi as (y & -> & Hy).
    change (kept grid_lists grid_data [0; x] a p) in Hk. change (kept grid_lists grid [1; y] a p) in Hk2.
    assert (B : forall k l, 0 <= k < 3 -> 0 <= l < 2 -> in_box [k; l] (shape_of grid_data)) by (intros; constructor; [assumption|constructor; [assumption|constructor]]).
    assert (Y : kept grid_lists grid_data [y; 1] a p).
    { inversion Hk2 as [| |? ? ? ? ? HE|? ? ? ? ? ? ? ? ? K]; subst; [destruct HE|].
      assert (Ey : dm_index [[1]; [0]] [[1]; [1]] [0; 0] [1; y] = [y; 1]) by (cbn -[Z.mul Z.add]; change (Pos.to_nat 1) with 1%nat; cbv iota; f_equal; lia). now rewrite Ey in K. }
    pose proof (k_sparse grid_lists grid_data (Buf 4 0 0 (VInt 0)) _ [0; 0] 0 grid_entries eq_refl ltac:(cbn; lia) eq_refl) as K0.
    pose proof (k_sparse grid_lists grid_data (Buf 4 0 0 (VInt 0)) _ [1; 1] 1 grid_entries eq_refl ltac:(cbn; lia) eq_refl) as K1.
    pose proof (k_sparse grid_lists grid_data (Buf 4 0 0 (VInt 0)) _ [2; 1] 3 grid_entries eq_refl ltac:(cbn; lia) eq_refl) as K3.
    assert (Hx2 : x = 0 \/ x = 1) by lia. destruct Hx2 as [-> | ->].
    + destruct (kept_unique _ _ _ _ _ _ _ (B 0 0 ltac:(lia) ltac:(lia)) grid_data_valid Hk K0) as [_ Ep].
      assert (Hy3 : y = 0 \/ y = 1 \/ y = 2) by lia. destruct Hy3 as [-> | [-> | ->]].
      * exact (kept_sparse _ _ _ _ [0; 1] grid_entries eq_refl (B 0 1 ltac:(lia) ltac:(lia)) eq_refl _ _ Y).
      * destruct (kept_unique _ _ _ _ _ _ _ (B 1 1 ltac:(lia) ltac:(lia)) grid_data_valid Y K1) as [_ Eq]. cbn in Ep, Eq. lia.
      * destruct (kept_unique _ _ _ _ _ _ _ (B 2 1 ltac:(lia) ltac:(lia)) grid_data_valid Y K3) as [_ Eq]. cbn in Ep, Eq. lia.
    + exact (kept_sparse _ _ _ _ [0; 1] grid_entries eq_refl (B 0 1 ltac:(lia) ltac:(lia)) eq_refl _ _ Hk).
  - eexists (repeat 0 6 ++ repeat 1 30 ++ repeat 0 40)%nat, _, [Ok []]. vm_compute. reflexivity.
Qed.

(** The same array over CSR data, as DM.fromobject(.., storage_class=CSR,
    unspecified=0) makes it. *)
Definition sheet_lists : heap :=
  [map VInt [1; 2; 3; 4]; map VInt [0; 0; 1; 1; 0; 2; 1; 2]; map VInt [0; 2; 4]; map VInt [0; 2; 1; 2]; map VInt [0; 2; 1; 2]; map VInt [1; 2; 3; 4]].
Definition sheet_data : storage := SCSR [2; 3] (Buf 3 0 2 VNone) (Buf 4 0 4 VNone) (Buf 4 0 5 (VInt 0)).
Definition sheet : storage := SDM [2; 3] [[0]; [1]] [[2]; [3]] [[1]; [1]] [0; 0] sheet_data.
Definition last_columns : pyindex := XTuple [INone; ISlice (Sl (Some 1) None None)].

Lemma sheet_entries : entries sheet_lists sheet_data [([0; 0], VInt 1); ([0; 2], VInt 2); ([1; 1], VInt 3); ([1; 2], VInt 4)].
Proof.
  refine (proj1 (csr_entries sheet_lists 2 3 (Buf 3 0 2 VNone) (Buf 4 0 4 VNone) (Buf 4 0 5 (VInt 0)) _ _ _ _ _ _ _ _ _ _)).
  - repeat constructor; lia.
  - split; [repeat constructor; cbn; lia|]. repeat constructor; cbn; lia.
  - eexists. repeat split; try reflexivity; cbn; lia.
  - eexists. repeat split; try reflexivity; cbn; lia.
  - eexists. repeat split; try reflexivity; cbn; lia.
  - discriminate.
  - discriminate.
  - reflexivity.
  - reflexivity.
Qed.
Lemma sheet_data_valid : valid sheet_lists sheet_data.
Proof. exact (ex_intro _ _ (repr_entries _ _ _ sheet_entries)). Qed.
Lemma sheet_built : built_dm [] sheet_lists sheet.
Proof.
  eapply (built_seq [] (VSeq [VSeq [VInt 1; VInt 0; VInt 2]; VSeq [VInt 0; VInt 3; VInt 4]]) [2; 3] (Some (VInt 0)) None None CCSR).
  - repeat (split || constructor); cbn; discriminate.
  - repeat constructor; lia.
  - constructor; [reflexivity|discriminate|discriminate].
  - reflexivity.
  - intros _. exists [0; 0], (VInt 1). split; [repeat constructor; lia|]. split; [reflexivity|]. split; discriminate.
  - vm_compute. reflexivity.
Qed.
Definition sheet_writes : list (list op) :=
  [[Assign sheet_data everything (SrcSeq (VSeq [VSeq [VInt 10; VInt 20; VInt 30]; VSeq [VInt 40; VInt 50; VInt 60]]))]].
Definition first_row_writes : list (list op) := [[Assign sheet_data (row 0) (SrcSeq (VSeq (map VInt [7; 8; 9])))]].
Lemma sheet_untouched programs : (forall o, stated programs o -> exists ix v, o = Assign sheet_data ix (SrcSeq v)) ->
  indices_untouched programs /\ forall a, In a (index_addrs sheet) -> untouched programs a.
Proof.
  intros H. assert (U : forall a, In a (index_addrs sheet) -> untouched programs a).
  { intros a Ha t ix value Hs. destruct (H _ Hs) as (ix' & v & Ho). injection Ho as -> _ _. cbn in Ha. destruct Ha as [<-|[<-|[]]]; discriminate. }
  split; [|exact U]. intros o s a Ho Hs Ha. destruct (H o Ho) as (ix & v & ->). destruct Hs as [<-|[]]. now apply U.
Qed.

Example C123_csr_case :
  Forall (Forall (flow_op sheet_lists)) sheet_writes /\ indices_untouched sheet_writes
  /\ (valid sheet_lists sheet /\ positive (shape_of sheet) /\ safe_index sheet last_columns) /\ own_cut sheet last_columns
  /\ ok_index last_columns (shape_of sheet) /\ slice_shape last_columns (shape_of sheet) = [2; 2]
  /\ (forall a, In a (index_addrs sheet) -> untouched sheet_writes a)
  /\ exists sched h' E s' h'', exec sched sheet_lists (dm_slice_t sheet last_columns :: map unlabelled (map thread sheet_writes)) = (h', [Ret (Ok E); Ret (Ok [])])
     /\ dm_slice_of sheet last_columns E h' = Ok (s', h'') /\ map (get_elem h'' s') (cart [2; 2]) = map Ok (map VInt [0; 2; 50; 60]).
Proof.
  assert (O : ok_index last_columns (shape_of sheet)) by (split; [repeat constructor; cbn; discriminate|right; cbn; lia]).
  destruct (sheet_untouched sheet_writes) as [U1 U2]. { intros o (ops & [<-|[]] & [<-|[]]). eauto. }
  split.
  { constructor; [|constructor]. constructor; [|constructor]. split; [exact sheet_data_valid|]. split; [repeat constructor; lia|].
    split; [split; [constructor; [discriminate|constructor]|right; cbn; lia]|]. split; [split; [exact I|discriminate]|].
    repeat (split || constructor); cbn; discriminate. }
  split; [exact U1|]. split; [apply (C123_built [] sheet_lists sheet last_columns sheet_built O); discriminate|].
  split; [intros g [<-|[<-|[]]]; eexists; (split; [now left|reflexivity])|]. split; [exact O|]. split; [reflexivity|]. split; [exact U2|].
  eexists (repeat 0 10 ++ repeat 1 80 ++ repeat 0 40)%nat, _, _, _, _.
  split; [vm_compute; reflexivity|]. split; [vm_compute; reflexivity|]. vm_compute. reflexivity.
Qed.

(** Row 1, while another thread assigns to all of the array, and to row 0 only. *)
Example C123_row_case :
  Forall (Forall (flow_op sheet_lists)) sheet_writes /\ indices_untouched sheet_writes
  /\ (valid sheet_lists sheet /\ positive (shape_of sheet) /\ safe_index sheet (row 1)) /\ row_cut sheet (row 1)
  /\ ok_index (row 1) (shape_of sheet) /\ slice_shape (row 1) (shape_of sheet) = [3]
  /\ (forall a, In a (index_addrs sheet) -> untouched sheet_writes a)
  /\ exists sched h' xs s' h'', exec sched sheet_lists (dm_row_t sheet (row 1) :: map thread sheet_writes) = (h', [Ret (Ok xs); Ret (Ok [])])
     /\ dm_row_of sheet (row 1) xs h' = Ok (s', h'') /\ map (get_elem h'' s') (cart [3]) = map Ok (map VInt [0; 3; 60]).
Proof.
  destruct C123_csr_case as (A1 & A2 & _ & _ & _ & _ & A3 & _). destruct row_ok as [O _].
  split; [exact A1|]. split; [exact A2|]. split; [apply (C123_built [] sheet_lists sheet (row 1) sheet_built O); discriminate|].
  split; [eexists; split; [now left|intros a [<-|[]]; reflexivity]|]. split; [exact O|]. split; [reflexivity|]. split; [exact A3|].
  eexists (repeat 0 22 ++ repeat 1 80 ++ repeat 0 80)%nat, _, _, _, _.
  split; [vm_compute; reflexivity|]. split; [vm_compute; reflexivity|]. vm_compute. reflexivity.
Qed.
Example C123_row_quiet_case :
  Forall (Forall (flow_op sheet_lists)) first_row_writes /\ indices_untouched first_row_writes
  /\ (forall a, In a (index_addrs sheet) -> untouched first_row_writes a)
  /\ (forall t ix' value j a p i, stated first_row_writes (Assign t ix' value) -> in_box j (slice_shape ix' (shape_of t)) ->
       kept sheet_lists t (source_index ix' (shape_of t) j) a p -> in_box i (slice_shape (row 1) (shape_of sheet)) ->
       ~ kept sheet_lists sheet (source_index (row 1) (shape_of sheet) i) a p)
  /\ exists sched h' xs s' h'', exec sched sheet_lists (dm_row_t sheet (row 1) :: map thread first_row_writes) = (h', [Ret (Ok xs); Ret (Ok [])])
     /\ dm_row_of sheet (row 1) xs h' = Ok (s', h'') /\ map (get_elem h'' s') (cart [3]) = map Ok (map VInt [0; 3; 4]).
Proof.
  destruct (sheet_untouched first_row_writes) as [U1 U2]. { intros o (ops & [<-|[]] & [<-|[]]). eauto. }
  split; [|split; [exact U1|split; [exact U2|split]]].
  - constructor; [|constructor]. constructor; [|constructor]. split; [exact sheet_data_valid|]. split; [repeat constructor; lia|].
    split; [split; [repeat constructor; cbn; try lia; discriminate|right; cbn; lia]|]. split; [split; [exact I|discriminate]|].
    repeat (split || constructor); cbn; discriminate.
  - intros t ix' value j a p i (ops & [<-|[]] & [Ho|[]]) Hj Hk Hi Hk2. injection Ho as <- <- _.
    change (in_box j [3]) in Hj. change (in_box i [3]) in Hi. apply box1 in Hj as (x & -> & Hx). apply box1 in Hi as (y & -> & Hy).
    change (kept sheet_lists sheet_data [0; x] a p) in Hk. change (kept sheet_lists sheet [1; y] a p) in Hk2.
    assert (Y : kept sheet_lists sheet_data [1; y] a p).
    { inversion Hk2 as [| |? ? ? ? ? HE|? ? ? ? ? ? ? ? ? K]; subst; [destruct HE|].
      assert (Ey : dm_index [[0]; [1]] [[1]; [1]] [0; 0] [1; y] = [1; y]) by (cbn -[Z.mul Z.add]; change (Pos.to_nat 1) with 1%nat; cbv iota; repeat (f_equal; try lia)).
      now rewrite Ey in K. }
    assert (P : forall k l, 0 <= k < 2 -> 0 <= l < 3 -> kept sheet_lists sheet_data [k; l] a p ->
       exists q, 0 <= q < 4 /\ p = q /\ (q < 2 <-> k = 0)).
    { intros k l Hk0 Hl0 K.
      assert (B : in_box [k; l] (shape_of sheet_data)) by (constructor; [exact Hk0|constructor; [exact Hl0|constructor]]).
      destruct (epos [([0; 0], VInt 1); ([0; 2], VInt 2); ([1; 1], VInt 3); ([1; 2], VInt 4)] [k; l]) as [q|] eqn:Eq;
        [|exfalso; exact (kept_sparse _ _ _ _ [k; l] sheet_entries eq_refl B Eq _ _ K)].
      apply epos_some in Eq as [Hq Eq].
      assert (Kq : kept sheet_lists sheet_data [k; l] 5 (0 + Z.of_nat q)).
      { apply (k_sparse sheet_lists sheet_data (Buf 4 0 5 (VInt 0)) _ [k; l] (Z.of_nat q) sheet_entries eq_refl); [unfold zlen; lia|].
        rewrite Nat2Z.id. exact Eq. }
      destruct (kept_unique _ _ _ _ _ _ _ B sheet_data_valid K Kq) as [_ Ep]. exists (Z.of_nat q). cbn [length] in Hq.
      split; [lia|]. split; [lia|]. destruct q as [|[|[|[|q]]]]; cbn in Eq; try lia; injection Eq as <- <-; lia. }
    destruct (P 0 x ltac:(lia) Hx Hk) as (q & _ & E1 & Q1). destruct (P 1 y ltac:(lia) Hy Y) as (q' & _ & E2 & Q2). lia.
  - eexists (repeat 0 6 ++ repeat 1 80 ++ repeat 0 80)%nat, _, _, _, _.
    split; [vm_compute; reflexivity|]. split; [vm_compute; reflexivity|]. vm_compute. reflexivity.
Qed.

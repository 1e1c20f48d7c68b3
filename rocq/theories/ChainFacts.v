(** Chains of slices, and which DM slices are safe. *)
From Coq Require Import Sorting.Sorted Permutation ZifyBool.
From Verif Require Import Py SliceTools Basics Storage Spec SliceFacts IndexFacts
  CompressFacts ReduceFacts SolverFacts SolveFacts Repr ReprFacts ViewFacts BuildFacts SparseFacts
  ConvFacts FromFacts DMFacts ReadFacts MapFacts.

(** [s[i1][i2]...] where every index is a slice. *)
Fixpoint getitems (h : heap) (s : storage) (ixs : list pyindex) : res (storage * heap) :=
  match ixs with
  | [] => Ok (s, h)
  | ix :: r =>
      '(it, h1) <- getitem h s ix ;;
      match it with
      | ISto s' => getitems h1 s' r
      | IVal _ => Raise OutOfModel
      end
  end.

Lemma chain_source_in_box : forall ixs sh j, chain_ok ixs sh -> in_box j (chain_shape ixs sh) ->
  in_box (chain_source ixs sh j) sh.
Proof.
  induction ixs as [|ix r IH]; intros sh j Hok Hj; cbn [chain_source chain_shape chain_ok] in *; [exact Hj|].
  destruct Hok as (Hp & Hx & Hne & Hr). apply source_index_in_box; auto.
Qed.

(** Classes whose slices need no side condition. *)
Definition plain (s : storage) : Prop :=
  match s with SStrided _ | SCOO _ _ _ | SFlatCOO _ _ _ | SCSR _ _ _ _ => True | _ => False end.

Lemma plain_safe s ix : plain s -> safe_index s ix.
Proof. destruct s; cbn; tauto. Qed.

Definition is_strided (s : storage) : Prop := match s with SStrided _ => True | _ => False end.

Lemma slice_plain s h f ix : repr h s f -> plain s -> positive (shape_of s) -> ok_index ix (shape_of s) ->
  slice_shape ix (shape_of s) <> [] ->
  exists s' h', getitem h s ix = Ok (ISto s', h')
    /\ shape_of s' = slice_shape ix (shape_of s)
    /\ unspecified_of s' = unspecified_of s
    /\ extends h h'
    /\ repr h' s' (fun j => f (source_index ix (shape_of s) j))
    /\ plain s'
    /\ (is_strided s -> is_strided s' /\ h' = h /\ data_addr s' = data_addr s)
    /\ (is_sparse s -> is_sparse s' /\ fresh h s').
Proof.
  intros Hr Hpl Hp Hok Hne.
  destruct (getitem_slice s h f ix Hr Hp Hok Hne (plain_safe s ix Hpl)) as (s' & h' & E1 & E2 & E3 & E4 & E5 & E6 & E7).
  exists s', h'. split; [exact E1|]. split; [exact E2|]. split; [exact E3|]. split; [exact E4|]. split; [exact E5|].
  assert (N : match s' with SDM _ _ _ _ _ _ => False | SBuffer _ => False | SC2SR _ _ _ _ _ _ => False | _ => True end
              /\ (is_strided s -> is_strided s')).
  { destruct s; try contradiction; cbn [getitem] in E1.
    - unfold strided_getitem in E1. apply bind_ok in E1. destruct E1 as (r & E1 & E1').
      injection E1' as -> <-. apply bind_ok in E1. destruct E1 as (nix & _ & E1).
      destruct (is_element_index nix (sshape s)).
      + apply bind_ok in E1. destruct E1 as (p & _ & E1). apply bind_ok in E1. destruct E1 as (v & _ & E1). discriminate.
      + apply bind_ok in E1. destruct E1 as ([[sh st] off] & _ & E1). apply bind_ok in E1. destruct E1 as (b & _ & E1).
        apply bind_ok in E1. destruct E1 as (t & _ & E1). injection E1 as <-. split; [exact I|auto].
    - destruct (E7 I) as [_ X]. split; [|intros []]. destruct Hr as (E & HE & _).
      destruct (getitem_sparse_slice h _ E ix HE Hp Hok Hne) as (s2 & h2 & E' & X1 & X2 & X3 & X4 & X5 & X6 & X7 & X8).
      cbn [getitem] in X1. rewrite E1 in X1. injection X1 as <- <-. destruct s'; try contradiction; exact I.
    - destruct (E7 I) as [_ X]. split; [|intros []]. destruct Hr as (E & HE & _).
      destruct (getitem_sparse_slice h _ E ix HE Hp Hok Hne) as (s2 & h2 & E' & X1 & X2 & X3 & X4 & X5 & X6 & X7 & X8).
      cbn [getitem] in X1. rewrite E1 in X1. injection X1 as <- <-. destruct s'; try contradiction; exact I.
    - destruct (E7 I) as [_ X]. split; [|intros []]. destruct Hr as (E & HE & _).
      destruct (getitem_sparse_slice h _ E ix HE Hp Hok Hne) as (s2 & h2 & E' & X1 & X2 & X3 & X4 & X5 & X6 & X7 & X8).
      cbn [getitem] in X1. rewrite E1 in X1. injection X1 as <- <-. destruct s'; try contradiction; exact I. }
  destruct N as [N1 N2].
  split; [destruct s'; try contradiction; exact I|]. split.
  - intros Hs. split; [now apply N2|]. destruct s; try contradiction. destruct (E6 I) as (-> & Ha & _).
    split; [reflexivity|]. unfold addrs in Ha. congruence.
  - intros Hs. assert (Hb : sparse_based s) by (destruct s; try contradiction; exact I).
    destruct (E7 Hb) as [Hf Hb']. split; [|exact Hf]. destruct s'; try contradiction; exact I.
Qed.

Lemma fresh_later h h' s : extends h h' -> fresh h' s -> fresh h s.
Proof.
  intros [t ->] H x Hx. specialize (H x Hx). rewrite app_length in H. lia.
Qed.

Lemma getitems_plain : forall ixs s h f, repr h s f -> plain s -> chain_ok ixs (shape_of s) ->
  exists s' h', getitems h s ixs = Ok (s', h')
    /\ shape_of s' = chain_shape ixs (shape_of s)
    /\ unspecified_of s' = unspecified_of s
    /\ extends h h'
    /\ repr h' s' (fun j => f (chain_source ixs (shape_of s) j))
    /\ plain s'
    /\ (is_strided s -> is_strided s' /\ h' = h /\ data_addr s' = data_addr s)
    /\ (is_sparse s -> is_sparse s' /\ (ixs <> [] -> fresh h s')).
Proof.
  induction ixs as [|ix r IH]; intros s h f Hr Hpl Hok; cbn [getitems chain_shape chain_source chain_ok] in *.
  - exists s, h. split; [reflexivity|]. split; [reflexivity|]. split; [reflexivity|]. split; [apply extends_refl|].
    split; [exact Hr|]. split; [exact Hpl|]. split; [auto|]. intros H. split; [exact H|]. congruence.
  - destruct Hok as (Hp & Hx & Hne & Hok).
    destruct (slice_plain s h f ix Hr Hpl Hp Hx Hne) as (s1 & h1 & E1 & E2 & E3 & E4 & E5 & E6 & E7 & E8).
    rewrite E1. cbn [bind]. rewrite <- E2 in Hok.
    destruct (IH s1 h1 _ E5 E6 Hok) as (s2 & h2 & F1 & F2 & F3 & F4 & F5 & F6 & F7 & F8).
    exists s2, h2. split; [exact F1|]. split; [now rewrite F2, E2|]. split; [now rewrite F3|].
    split; [eapply extends_trans; eassumption|]. split; [rewrite <- E2; exact F5|]. split; [exact F6|]. split.
    + intros Hs. destruct (E7 Hs) as (S1 & -> & Ha). destruct (F7 S1) as (S2 & -> & Hb).
      split; [exact S2|]. split; [reflexivity|congruence].
    + intros Hs. destruct (E8 Hs) as [S1 Hf]. destruct (F8 S1) as [S2 Hf2]. split; [exact S2|]. intros _.
      destruct r as [|ix' r']; [cbn [getitems] in F1; injection F1 as <- <-; exact Hf|].
      eapply fresh_later; [exact E4|]. apply Hf2. discriminate.
Qed.

(** * Safe DM slices *)
Lemma zero_in_box sh : positive sh -> in_box (map (fun _ => 0) sh) sh.
Proof. intros H. induction H; constructor; auto; lia. Qed.

Lemma dm_index_length rd rs ro i : Forall2 (fun g st : list Z => length g = length st) rd rs ->
  length ro = length rd -> length (dm_index rd rs ro i) = length rd.
Proof.
  intros H. revert ro. induction H as [|g st rd rs Hg H IH]; intros [|o ro] Hl; cbn in *; try lia.
  now rewrite IH by lia.
Qed.

Lemma dm_rank sh rd rsh rs ro dsh : dm_ok sh rd rsh rs ro dsh -> positive sh ->
  length rd = length dsh /\ positive dsh.
Proof.
  intros Hd Hp. pose proof (dm_box _ _ _ _ _ _ Hd _ (zero_in_box sh Hp)) as Hb. split.
  - apply in_box_len in Hb. rewrite <- Hb. symmetry.
    apply dm_index_length; [apply (dm_rstrides _ _ _ _ _ _ Hd)|apply (dm_roffset _ _ _ _ _ _ Hd)].
  - revert Hb. clear. generalize (dm_index rd rs ro (map (fun _ => 0) sh)). intros i H.
    induction H; constructor; auto; lia.
Qed.

Lemma axis_group sh rd rsh rs ro dsh fx a : dm_ok sh rd rsh rs ro dsh -> (a < length sh)%nat ->
  nth a fx false = false ->
  exists k, (k < length rd)%nat /\ nth k (map (group_fixed fx) rd) false = false.
Proof.
  intros Hd Ha Hfa.
  assert (Hin : In (Z.of_nat a) (concat rd)).
  { eapply Permutation_in; [apply Permutation_sym, (dm_perm _ _ _ _ _ _ Hd)|]. apply In_zseq. unfold zlen. lia. }
  apply in_concat in Hin. destruct Hin as (g' & Hg' & Hin).
  destruct (In_nth _ _ ([] : list Z) Hg') as (k & Hk & Ek). exists k. split; [exact Hk|].
  rewrite nth_indep with (d' := group_fixed fx []) by now rewrite map_length.
  rewrite map_nth, Ek. unfold group_fixed. apply not_true_is_false. intros H.
  rewrite forallb_forall in H. specialize (H _ Hin). rewrite Nat2Z.id in H. congruence.
Qed.

Lemma safe_zero_fixed : forall s h f fx, repr h s f -> zero_off s -> positive (shape_of s) ->
  (length fx <= length (shape_of s))%nat ->
  (exists a, (a < length (shape_of s))%nat /\ nth a fx false = false) ->
  safe_fixed s fx.
Proof.
  induction s as [b|t|sh ind d|sh fi d|sh cr co d|sh ch a b c d|sh rd rsh rs ro d IH];
    intros h f fx Hr Hz Hp Hl (ax & Ha & Hfa); cbn [safe_fixed]; try exact I.
  - cbn [shape_of length] in *. destruct fx as [|x [|y fx]]; cbn [length] in Hl; try lia; [constructor|].
    destruct ax; [|lia]. cbn in Hfa. now repeat constructor.
  - destruct Hr as (g & Hg & Hd & Hf). destruct Hz as [Hz1 Hz2]. cbn [shape_of] in *. split.
    + pose proof (dm_roffset _ _ _ _ _ _ Hd) as Hro. clear - Hz1 Hro.
      revert ro Hz1 Hro. induction rd as [|x rd IH]; intros [|o ro] Hz Hro; cbn in Hro; try lia; constructor.
      * inversion Hz; auto.
      * apply IH; [inversion Hz; auto|lia].
    + destruct (dm_rank _ _ _ _ _ _ Hd Hp) as [Hlen Hpd].
      destruct (axis_group _ _ _ _ _ _ fx ax Hd Ha Hfa) as (k & Hk & Ek).
      apply (IH h g); auto; [rewrite map_length; lia|]. exists k. split; [lia|exact Ek].
Qed.

Lemma not_element_free ix sh : slice_shape ix sh <> [] ->
  (ix = XItem INone \/ (length (index_items ix) <= length sh)%nat) ->
  (length (map is_int_ind (index_items ix)) <= length sh)%nat
  /\ exists a, (a < length sh)%nat /\ nth a (map is_int_ind (index_items ix)) false = false.
Proof.
  intros Hne Hlen. unfold slice_shape in Hne.
  assert (Hl : (length (index_items ix) <= length sh)%nat).
  { destruct Hlen as [->|H]; [|exact H]. destruct sh; [contradiction Hne; reflexivity|cbn; lia]. }
  rewrite map_length. split; [exact Hl|]. clear Hlen. revert sh Hne Hl.
  induction (index_items ix) as [|i r IH]; intros sh Hne Hl.
  - destruct sh; [contradiction Hne; reflexivity|]. exists 0%nat. split; [cbn; lia|reflexivity].
  - destruct sh as [|n sh]; [cbn in Hl; lia|]. cbn [length] in Hl.
    destruct i as [z|sl| |]; cbn [items_shape] in Hne; cbn [map is_int_ind].
    + destruct (IH sh Hne ltac:(lia)) as (a & Ha & E). exists (S a). split; [cbn; lia|exact E].
    + exists 0%nat. split; [cbn; lia|reflexivity].
    + exists 0%nat. split; [cbn; lia|reflexivity].
    + exists 0%nat. split; [cbn; lia|reflexivity].
Qed.

Lemma safe_zero s h f ix : repr h s f -> zero_off s -> positive (shape_of s) -> ok_index ix (shape_of s) ->
  slice_shape ix (shape_of s) <> [] -> (forall b, s <> SBuffer b) -> safe_index s ix.
Proof.
  intros Hr Hz Hp [_ Hlen] Hne Hb. destruct (not_element_free ix (shape_of s) Hne Hlen) as [H1 H2].
  pose proof (safe_zero_fixed s h f _ Hr Hz Hp H1 H2) as H.
  destruct s; try exact H. now contradiction (Hb b).
Qed.

(** No group of axes is empty, at any level. *)
Definition no_empty : storage -> Prop :=
  fix go s := match s with
              | SDM _ rd _ _ _ d => Forall (fun g => g <> []) rd /\ go d
              | _ => True
              end.

Lemma safe_int_free_fixed : forall s h f n, repr h s f -> no_empty s -> safe_fixed s (repeat false n).
Proof.
  induction s as [b|t|sh ind d|sh fi d|sh cr co d|sh ch a b c d|sh rd rsh rs ro d IH];
    intros h f n Hr Hz; cbn [safe_fixed]; try exact I.
  - apply Forall_forall. intros x Hx. now apply repeat_spec in Hx.
  - destruct Hr as (g & Hg & Hd & Hf). destruct Hz as [Hz1 Hz2].
    assert (Hgf : forall g', g' <> [] -> group_fixed (repeat false n) g' = false).
    { intros g' Hne. destruct g' as [|x g']; [congruence|]. unfold group_fixed. cbn [forallb].
      replace (nth (Z.to_nat x) (repeat false n) false) with false; [reflexivity|].
      destruct (nth_in_or_default (Z.to_nat x) (repeat false n) false) as [H|H]; [now apply repeat_spec in H|now symmetry]. }
    split.
    + pose proof (dm_roffset _ _ _ _ _ _ Hd) as Hro. clear - Hz1 Hro Hgf.
      revert ro Hro. induction Hz1 as [|x rd Hx Hz IH]; intros [|o ro] Hro; cbn in Hro; try lia; constructor.
      * rewrite Hgf by assumption. discriminate.
      * apply IH. lia.
    + replace (map (group_fixed (repeat false n)) rd) with (repeat false (length rd)); [now apply (IH h g)|].
      clear - Hz1 Hgf. induction Hz1 as [|x rd Hx Hz IH]; cbn [length repeat map]; [reflexivity|].
      rewrite Hgf by assumption. now rewrite IH.
Qed.

Definition int_free (ix : pyindex) : Prop := Forall (fun i => is_int_ind i = false) (index_items ix).

Lemma safe_int_free s h f ix : repr h s f -> no_empty s -> int_free ix -> (forall b, s <> SBuffer b) ->
  safe_index s ix.
Proof.
  intros Hr Hn Hi Hb.
  assert (E : map is_int_ind (index_items ix) = repeat false (length (index_items ix))).
  { unfold int_free in Hi. induction Hi as [|x l Hx Hi IH]; cbn [map length repeat]; congruence. }
  pose proof (safe_int_free_fixed s h f (length (index_items ix)) Hr Hn) as H. rewrite <- E in H.
  destruct s; try exact H. now contradiction (Hb b).
Qed.

Lemma dm_slice_groups_nonempty nix amap : forall rdims rshapes rstrides roffset ro rs di rd,
  dm_slice_groups nix amap rdims rshapes rstrides roffset = Ok (ro, rs, di, rd) ->
  Forall (fun g => g <> []) rd.
Proof.
  induction rdims as [|g gs IH]; intros rshapes rstrides roffset ro rs di rd H; cbn [dm_slice_groups] in H.
  - injection H as <- <- <- <-. constructor.
  - destruct rshapes as [|sh shs]; [discriminate|]. destruct rstrides as [|st sts]; [discriminate|].
    apply bind_ok in H. destruct H as (ks & _ & H). apply bind_ok in H. destruct H as ([[ksh kst] koff] & _ & H).
    apply bind_ok in H. destruct H as (o & _ & H).
    apply bind_ok in H. destruct H as (t & _ & H). apply bind_ok in H. destruct H as ([[[ro' rs'] di'] rd'] & E & H).
    apply IH in E. destruct ksh; injection H as <- <- <- <-; destruct t; auto; constructor; auto; discriminate.
Qed.

Lemma flat_slice_class s h ix s' h' : (forall sh rd rsh rs ro d, s <> SDM sh rd rsh rs ro d) ->
  getitem h s ix = Ok (ISto s', h') -> no_empty s'.
Proof.
  intros Hs H.
  assert (Coo : forall h s d sh st off r h', coo_get_slice h s d sh st off = Ok (r, h') -> no_empty r).
  { clear. intros h s d sh st off r h' H. unfold coo_get_slice, new_buffer, mk_coo in H.
    apply bind_ok in H. destruct H as (l & _ & H). apply bind_ok in H. destruct H as (vs & _ & H).
    apply bind_ok in H. destruct H as (c0 & _ & H). destruct (alloc h _) as [a h1].
    apply bind_ok in H. destruct H as (ib & _ & H). apply bind_ok in H. destruct H as (ind & _ & H).
    apply bind_ok in H. destruct H as ([d' h2] & _ & H). apply bind_ok in H. destruct H as (r' & E & H).
    injection H as -> _. apply bind_ok in E. destruct E as (n & _ & E). apply bind_ok in E. destruct E as (u & _ & E).
    injection E as <-. exact I. }
  assert (Flat : forall h s d sh st off r h', flatcoo_get_slice h s d sh st off = Ok (r, h') -> no_empty r).
  { clear. intros h s d sh st off r h' H. unfold flatcoo_get_slice, mk_flatcoo in H.
    apply bind_ok in H. destruct H as (l & _ & H). apply bind_ok in H. destruct H as (vs & _ & H).
    apply bind_ok in H. destruct H as (c0 & _ & H).
    apply bind_ok in H. destruct H as ([d' h2] & _ & H). apply bind_ok in H. destruct H as ([f' h3] & _ & H).
    apply bind_ok in H. destruct H as (r' & E & H).
    injection H as -> _. apply bind_ok in E. destruct E as (u & _ & E). injection E as <-. exact I. }
  assert (Csr : forall h s d sh st off r h', csr_get_slice h s d sh st off = Ok (r, h') -> no_empty r).
  { clear - Coo. intros h s d sh st off r h' H. unfold csr_get_slice in H. destruct (zlen sh =? 1).
    - apply bind_ok in H. destruct H as ([c h1] & _ & H). apply bind_ok in H. destruct H as (d1 & _ & H). eapply Coo; eassumption.
    - apply bind_ok in H. destruct H as (u & _ & H). apply bind_ok in H. destruct H as (l & _ & H).
      apply bind_ok in H. destruct H as (vs & _ & H). apply bind_ok in H. destruct H as ([d1 h1] & _ & H).
      apply bind_ok in H. destruct H as (n & _ & H). apply bind_ok in H. destruct H as (crow & _ & H).
      apply bind_ok in H. destruct H as ([cb h2] & _ & H). apply bind_ok in H. destruct H as ([col h3] & _ & H).
      apply bind_ok in H. destruct H as (r' & E & H). injection H as -> _. unfold mk_csr in E.
      apply bind_ok in E. destruct E as (? & _ & E). apply bind_ok in E. destruct E as (? & _ & E).
      apply bind_ok in E. destruct E as (? & _ & E). apply bind_ok in E. destruct E as (? & _ & E).
      injection E as <-. exact I. }
  destruct s; cbn [getitem] in H; try (now contradiction (Hs shape rdims rshapes rstrides roffset s)).
  - unfold buffer_getitem in H. apply bind_ok in H. destruct H as (r & H & H'). injection H' as -> _.
    apply bind_ok in H. destruct H as (i & _ & H). destruct i.
    + apply bind_ok in H. destruct H as (v & _ & H). discriminate.
    + apply bind_ok in H. destruct H as (b' & _ & H). injection H as <-. exact I.
    + injection H as <-. exact I.
    + discriminate.
  - unfold strided_getitem in H. apply bind_ok in H. destruct H as (r & H & H').
    injection H' as -> _. apply bind_ok in H. destruct H as (nix & _ & H).
    destruct (is_element_index nix (sshape s)).
    + apply bind_ok in H. destruct H as (p & _ & H). apply bind_ok in H. destruct H as (v & _ & H). discriminate.
    + apply bind_ok in H. destruct H as ([[sh st] off] & _ & H). apply bind_ok in H. destruct H as (b & _ & H).
      apply bind_ok in H. destruct H as (t & _ & H). injection H as <-. exact I.
  - apply bind_ok in H. destruct H as (nix & _ & H). destruct (is_element_index nix _).
    + apply bind_ok in H. destruct H as (v & _ & H). discriminate.
    + apply bind_ok in H. destruct H as ([[sh st] off] & _ & H). apply bind_ok in H. destruct H as (d & _ & H).
      apply bind_ok in H. destruct H as ([r h1] & H & H'). injection H' as -> _. eapply Coo; eassumption.
  - apply bind_ok in H. destruct H as (nix & _ & H). destruct (is_element_index nix _).
    + apply bind_ok in H. destruct H as (v & _ & H). discriminate.
    + apply bind_ok in H. destruct H as ([[sh st] off] & _ & H). apply bind_ok in H. destruct H as (d & _ & H).
      apply bind_ok in H. destruct H as ([r h1] & H & H'). injection H' as -> _. eapply Flat; eassumption.
  - apply bind_ok in H. destruct H as (nix & _ & H). destruct (is_element_index nix _).
    + apply bind_ok in H. destruct H as (v & _ & H). discriminate.
    + apply bind_ok in H. destruct H as ([[sh st] off] & _ & H). apply bind_ok in H. destruct H as (d & _ & H).
      apply bind_ok in H. destruct H as ([r h1] & H & H'). injection H' as -> _. eapply Csr; eassumption.
  - apply bind_ok in H. destruct H as (nix & _ & H). destruct (is_element_index nix _).
    + apply bind_ok in H. destruct H as (v & _ & H). discriminate.
    + apply bind_ok in H. destruct H as ([[sh st] off] & _ & H). apply bind_ok in H. destruct H as (d & _ & H).
      apply bind_ok in H. destruct H as ([r h1] & H & H'). discriminate.
Qed.

Lemma slice_no_empty : forall s h ix s' h', getitem h s ix = Ok (ISto s', h') -> no_empty s'.
Proof.
  induction s as [b|t|sh ind d|sh fi d|sh cr co d|sh ch a b c d|sh rd rsh rs ro d IH]; intros h ix s' h' H;
    try (eapply flat_slice_class; [|exact H]; discriminate).
  cbn [getitem] in H. apply bind_ok in H. destruct H as (nix & _ & H). destruct (is_element_index nix sh).
  - apply bind_ok in H. destruct H as (r & _ & H). now apply IH in H.
  - apply bind_ok in H. destruct H as (nix2 & _ & H). apply bind_ok in H. destruct H as (gsh & _ & H).
    apply bind_ok in H. destruct H as ([[[ro' rs'] di] rd'] & Eg & H). apply bind_ok in H. destruct H as ([it h1] & Ei & H).
    destruct it as [v|d']; [discriminate|]. apply bind_ok in H. destruct H as (r & Em & H). injection H as -> <-.
    assert (Hd : no_empty d').
    { destruct di; [|now apply IH in Ei].
      injection Ei as <- <-. destruct rd as [|g gs]; cbn [dm_slice_groups] in Eg.
      - injection Eg as <- <- <-. cbn in Em. discriminate.
      - destruct rsh; [discriminate|]. destruct rs; [discriminate|].
        apply bind_ok in Eg. destruct Eg as (? & _ & Eg). apply bind_ok in Eg. destruct Eg as ([[ksh ?] ?] & _ & Eg).
        apply bind_ok in Eg. destruct Eg as (? & _ & Eg). apply bind_ok in Eg. destruct Eg as (? & _ & Eg).
        apply bind_ok in Eg. destruct Eg as ([[[? ?] ?] ?] & _ & Eg).
        destruct ksh; discriminate. }
    apply dm_slice_groups_nonempty in Eg. unfold mk_dm in Em. destruct rd'; [discriminate|].
    apply bind_ok in Em. destruct Em as (u & _ & Em). apply bind_ok in Em. destruct Em as ([[? ?] ?] & _ & Em).
    injection Em as <-. split; assumption.
Qed.

Definition is_dm (s : storage) : Prop := match s with SDM _ _ _ _ _ _ => True | _ => False end.

Lemma dm_slice_dm s h ix s' h' : is_dm s -> slice_shape ix (shape_of s) <> [] -> positive (shape_of s) ->
  ok_index ix (shape_of s) -> getitem h s ix = Ok (ISto s', h') -> is_dm s'.
Proof.
  destruct s; try contradiction. intros _ Hne Hp Hok H. cbn [shape_of] in *. cbn [getitem] in H.
  rewrite normalize_index_ok in H by assumption. cbn [bind] in H.
  destruct (is_element_index (norm_items (index_items ix) shape) shape) eqn:Ee.
  - exfalso. apply Hne. unfold slice_shape. destruct Hok as [Hi _]. rewrite <- norm_items_shape by assumption.
    apply element_n_shape; auto. now apply norm_items_normal.
  - apply bind_ok in H. destruct H as (nix2 & _ & H). apply bind_ok in H. destruct H as (gsh & _ & H).
    apply bind_ok in H. destruct H as ([[[ro' rs'] di] rd'] & Eg & H). apply bind_ok in H. destruct H as ([it h1] & Ei & H).
    destruct it as [v|d']; [discriminate|]. apply bind_ok in H. destruct H as (r & Em & H). injection H as -> <-.
    unfold mk_dm in Em. destruct rd'; [discriminate|].
    apply bind_ok in Em. destruct Em as (u & _ & Em). apply bind_ok in Em. destruct Em as ([[? ?] ?] & _ & Em).
    injection Em as <-. exact I.
Qed.

Lemma is_dm_not_buffer s : is_dm s -> forall b, s <> SBuffer b.
Proof. intros H b ->. exact H. Qed.

Lemma getitems_int_free : forall ixs s h f, repr h s f -> is_dm s -> no_empty s -> chain_ok ixs (shape_of s) ->
  Forall int_free ixs ->
  exists s' h', getitems h s ixs = Ok (s', h')
    /\ shape_of s' = chain_shape ixs (shape_of s)
    /\ unspecified_of s' = unspecified_of s
    /\ extends h h'
    /\ repr h' s' (fun j => f (chain_source ixs (shape_of s) j))
    /\ is_dm s' /\ no_empty s'.
Proof.
  induction ixs as [|ix r IH]; intros s h f Hr Hdm Hno Hok Hfree; cbn [getitems chain_shape chain_source chain_ok] in *.
  - exists s, h. split; [reflexivity|]. split; [reflexivity|]. split; [reflexivity|]. split; [apply extends_refl|]. auto.
  - destruct Hok as (Hp & Hx & Hne & Hok). inversion Hfree as [|? ? Hf1 Hf2]; subst.
    destruct (getitem_slice s h f ix Hr Hp Hx Hne (safe_int_free s h f ix Hr Hno Hf1 (is_dm_not_buffer s Hdm)))
      as (s1 & h1 & E1 & E2 & E3 & E4 & E5 & E6 & E7).
    rewrite E1. cbn [bind]. rewrite <- E2 in Hok.
    destruct (IH s1 h1 _ E5 (dm_slice_dm s h ix s1 h1 Hdm Hne Hp Hx E1) (slice_no_empty s h ix s1 h1 E1) Hok Hf2)
      as (s2 & h2 & F1 & F2 & F3 & F4 & F5 & F6).
    exists s2, h2. split; [exact F1|]. split; [now rewrite F2, E2|]. split; [now rewrite F3|].
    split; [eapply extends_trans; eassumption|]. split; [rewrite <- E2; exact F5|exact F6].
Qed.

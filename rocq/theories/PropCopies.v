(** C112: conversions of arrays other threads assign to. *)
From Verif Require Import Py SliceTools Basics Storage Spec SliceFacts IndexFacts CompressFacts ReduceFacts SolverFacts
  SolveFacts Repr ReprFacts ViewFacts BuildFacts SparseFacts ConvFacts FromFacts MapFacts DMFacts WriteFacts RefineFacts
  PropRead PropWrite Threads ThreadFacts PropThreads PropRaces PropFlow Copies.
From Coq Require Import List.
Import ListNotations.

(** * [copy_t] and [copy_of], run alone, are fromobject *)

Lemma copy_thread s : shape_of s <> [] -> copy_t s = thread (map (Read s) (cart (shape_of s))).
Proof.
  intros Hne. unfold copy_t. assert (G : forall l, (forall i, In i l -> i <> []) -> mapM_t (get_value_t (SrcSto s)) l = thread (map (Read s) l)).
  { induction l as [|i l IH]; intros H; [reflexivity|]. cbn [mapM_t map thread].
    rewrite IH by (intros j Hj; apply H; now right). f_equal.
    destruct i as [|z i]; [exfalso; apply (H []); [now left|reflexivity]|reflexivity]. }
  apply G. intros i Hi ->. apply cart_length in Hi. destruct (shape_of s); [congruence|discriminate].
Qed.

Lemma value_read_ok ixs (f : list Z -> pyval) i : In i ixs -> value_read ixs (map f ixs) i = Ok (f i).
Proof.
  induction ixs as [|j ixs IH]; intros H; [contradiction|]. destruct H as [<-|H]; cbn [value_read map]; [now rewrite lex_eqb_refl|].
  destruct (lex_eqb j i) eqn:E; [apply lex_eqb_eq in E; now subst|now apply IH].
Qed.
Lemma value_read_some : forall ixs xs i, In i ixs -> length xs = length ixs -> exists x, value_read ixs xs i = Ok x.
Proof.
  induction ixs as [|j ixs IH]; intros [|x xs] i Hi L; cbn in L; try lia; try contradiction.
  cbn [value_read]. destruct (lex_eqb j i) eqn:E; [eauto|]. destruct Hi as [->|Hi]; [rewrite lex_eqb_refl in E; discriminate|]. apply IH; [exact Hi|lia].
Qed.

Lemma value_read_in : forall ixs xs i x, value_read ixs xs i = Ok x -> In x xs.
Proof.
  induction ixs as [|j ixs IH]; intros [|y xs] i x E; cbn [value_read] in E; try discriminate.
  destruct (lex_eqb j i); [injection E as <-; now left|right; eapply IH; exact E].
Qed.
Lemma value_read_all : forall ixs xs x, NoDup ixs -> length xs = length ixs -> In x xs ->
  exists i, In i ixs /\ value_read ixs xs i = Ok x.
Proof.
  induction ixs as [|j ixs IH]; intros [|y xs] x N L Hx; cbn in L; try lia; [contradiction|].
  inversion N as [|? ? N1 N2]; subst. destruct Hx as [<-|Hx].
  - exists j. split; [now left|]. cbn [value_read]. now rewrite lex_eqb_refl.
  - destruct (IH xs x N2) as (i & Hi & E); [lia|exact Hx|]. exists i. split; [now right|]. cbn [value_read].
    destruct (lex_eqb j i) eqn:Ej; [apply lex_eqb_eq in Ej; subst; contradiction|exact E].
Qed.

Lemma collect_eq g g' su u : forall l, (forall i, In i l -> g i = g' i) -> collect g su u l = collect g' su u l.
Proof.
  induction l as [|i l IH]; intros H; [reflexivity|]. cbn [collect]. rewrite (H i) by now left.
  rewrite IH by (intros j Hj; apply H; now right). reflexivity.
Qed.
Lemma build_eq c g g' sh su u h : (forall i, In i (cart sh) -> g i = g' i) -> build c g sh su u h = build c g' sh su u h.
Proof.
  intros H. unfold build, strided_build, buffer_build, coo_build, flatcoo_build. rewrite (collect_eq g g') by exact H. reflexivity.
Qed.
Lemma fromobject_build c h s uo : no_shortcut c (SrcSto s) (FO None None uo) -> c <> CDM ->
  flat_fromobject c h (SrcSto s) (FO None None uo)
  = build c (get_value h (SrcSto s)) (shape_of s) (unspecified_of s) (match uo with None => unspecified_of s | Some u => u end) h.
Proof.
  intros Hns Hc. unfold no_shortcut in Hns.
  destruct c; try contradiction; try congruence; cbn [flat_fromobject build]; unfold csr_fromobject, coo_fromobject, flatcoo_fromobject, strided_fromobject, buffer_fromobject;
    destruct s, uo as [u|]; cbn [is_default] in *; try reflexivity; try contradiction.
Qed.

Lemma box_fits h s i : valid h s -> in_box i (shape_of s) -> fits s.
Proof. intros V Hi. apply (C94_arrays_fit h s V). destruct s; auto. now apply box_positive with i. Qed.

Lemma run_copy s h : valid h s -> shape_of s <> [] ->
  run (copy_t s) h = (h, mapM (get_value h (SrcSto s)) (cart (shape_of s))).
Proof.
  intros V Hne. unfold copy_t. assert (G : forall l, (forall i, In i l -> in_box i (shape_of s)) ->
    run (mapM_t (get_value_t (SrcSto s)) l) h = (h, mapM (get_value h (SrcSto s)) l)).
  { induction l as [|i l IH]; intros H; [reflexivity|]. cbn [mapM_t mapM]. rewrite run_bind.
    assert (Hi : in_box i (shape_of s)) by (apply H; now left).
    rewrite (reads_value (SrcSto s) i (length (shape_of s)));
      [|split; [exact (box_fits h s i V Hi)|reflexivity]|exact (Forall2_len _ _ _ Hi)].
    destruct (get_value h (SrcSto s) i) as [x|e]; cbn [bind]; [|reflexivity]. rewrite run_bind, IH by (intros j Hj; apply H; now right).
    destruct (mapM (get_value h (SrcSto s)) l) as [ys|e]; reflexivity. }
  apply G. intros i Hi. now apply In_cart.
Qed.

(** With nobody else around, reading and then building is fromobject. *)
Theorem C112_alone : forall c h s uo,
  valid h s -> shape_of s <> [] -> no_shortcut c (SrcSto s) (FO None None uo) -> c <> CDM ->
  exists xs, run (copy_t s) h = (h, Ok xs)
  /\ copy_of c s (match uo with None => unspecified_of s | Some u => u end) xs h
     = flat_fromobject c h (SrcSto s) (FO None None uo).
Proof.
  intros c h s uo V Hne Hns Hc. pose proof V as (f & Hr). exists (map f (cart (shape_of s))).
  assert (G : forall i, In i (cart (shape_of s)) -> get_value h (SrcSto s) i = Ok (f i)).
  { intros i Hi. apply In_cart in Hi. cbn [get_value]. destruct i as [|z i]; [apply Forall2_len in Hi; destruct (shape_of s); [congruence|discriminate]|].
    now apply repr_get. }
  split; [rewrite (run_copy s h V Hne), (mapM_ok _ f) by exact G; reflexivity|].
  rewrite fromobject_build by assumption. apply build_eq. intros i Hi. rewrite (G i Hi). now apply value_read_ok.
Qed.
Print Assumptions C112_alone.

(** * The new array *)

Lemma build_values c h sh su u g get : c <> CDM -> nonneg sh -> (forall i, in_box i sh -> get i = Ok (g i)) ->
  class_ok c sh u (fun i => conv_value su u (g i)) ->
  exists s h', build c get sh su u h = Ok (s, h') /\ is_class c s
    /\ shape_of s = sh /\ unspecified_of s = u /\ extends h h' /\ fresh h s
    /\ repr h' s (fun i => conv_value su u (g i)).
Proof.
  intros Hd Hn Hg Hc. destruct c; cbn [class_ok] in Hc; try contradiction; cbn [build].
  - rewrite (buffer_build_ok _ g) by assumption. cbn [bind].
    set (vs := map (fun i => conv_value su u (g i)) (cart sh)).
    eexists _, _. split; [reflexivity|]. split; [exact I|]. cbn [shape_of unspecified_of bsize bunspec].
    destruct sh as [|n [|? ?]]; cbn in Hc; try lia.
    assert (Hz : zlen vs = n).
    { unfold vs. rewrite zlen_map, cart_1, zlen_map, zseq_length. inversion Hn; lia. }
    rewrite Hz. split; [reflexivity|]. split; [reflexivity|]. split; [apply extends_alloc|].
    split; [intros x [<-|[]]; cbn; lia|].
    cbn [repr]. exists vs. split; [rewrite <- Hz; apply holds_new|].
    intros x Hx. unfold vs. rewrite Hz in Hx. rewrite cart_1, map_map.
    rewrite nth_indep with (d' := conv_value su u (g [0])) by (rewrite map_length, zseq_length_nat; lia).
    rewrite (map_nth (fun x => conv_value su u (g [x]))). rewrite nth_zseq by lia. reflexivity.
  - destruct (repr_strided_build get g sh su u h Hn Hg) as (t & h' & E1 & E2 & E3 & E4 & E5 & E6).
    rewrite E1. cbn [bind]. exists (SStrided t), h'. split; [reflexivity|]. split; [exact I|].
    split; [exact E2|]. split; [exact E3|]. split; [subst h'; apply extends_alloc|].
    split; [intros x [<-|[]]; cbn [data_addr]; lia|]. exact E6.
  - destruct (coo_build_ok get g sh su u h Hn Hc Hg) as (ind & h' & E1 & E2 & Ea & E3).
    rewrite E1. eexists _, _. split; [reflexivity|]. split; [exact I|]. split; [reflexivity|].
    split; [reflexivity|]. split; [exact E2|].
    split; [intros x [<-|[<-|[]]]; cbn [data_addr baddr]; lia|].
    eapply repr_ext; [|apply repr_entries, E3]. intros i Hi. now rewrite entries_of_lookup.
  - destruct (flatcoo_build_ok get g sh su u h Hn Hc Hg) as (h' & E1 & E2 & E3).
    rewrite E1. eexists _, _. split; [reflexivity|]. split; [exact I|]. split; [reflexivity|].
    split; [reflexivity|]. split; [exact E2|].
    split; [intros x [<-|[<-|[]]]; cbn [data_addr baddr]; lia|].
    eapply repr_ext; [|apply repr_entries, E3]. intros i Hi. now rewrite entries_of_lookup.
  - destruct Hc as [Hl Hsp].
    destruct (coo_build_ok get g sh su u h Hn) as (ind & h1 & E1 & E2 & Ea & E3); auto.
    { destruct sh; discriminate. }
    rewrite E1. cbn [bind]. destruct sh as [|n [|m [|? ?]]]; cbn in Hl; try lia.
    destruct (csr_of_coo_ok h1 n m _ _ _ E3) as (cb & cl & d' & h' & F1 & F2 & F3 & F4 & F5).
    { now apply entries_of_nonempty. }
    rewrite F1. eexists _, _. split; [reflexivity|]. split; [exact I|]. split; [reflexivity|].
    split; [exact F4|]. split; [eapply extends_trans; eassumption|].
    split; [eapply fresh_extends; eassumption|].
    eapply repr_ext; [|apply repr_entries, F3]. intros i Hi.
    cbn [unspecified_of]. rewrite F4. now rewrite entries_of_lookup.
Qed.

(** * With other threads *)

Lemma possible_reads h programs l : (forall o, In o l -> exists s i, o = Read s i) ->
  forall a p x, possible h (l :: programs) a p x -> possible h programs a p x.
Proof.
  intros Hl. assert (S : forall s ix v, stated (l :: programs) (Assign s ix v) -> stated programs (Assign s ix v)).
  { intros s ix v (ops & [<-|A] & B); [destruct (Hl _ B) as (? & ? & ?); discriminate|]. now exists ops. }
  induction 1.
  - now apply p_initial.
  - eapply p_listed; eauto.
  - eapply p_copied; eauto.
  - eapply p_unspecified; eauto.
Qed.

Lemma reads_all (P : storage -> list Z -> pyval -> Prop) s : forall l xs, reads_give P (map (Read s) l) xs ->
  length xs = length l /\ forall i x, value_read l xs i = Ok x -> P s i x.
Proof.
  induction l as [|j l IH]; intros xs H; cbn [map reads_give] in H.
  - subst xs. split; [reflexivity|]. discriminate.
  - destruct xs as [|y xs]; [contradiction|]. destruct H as [H1 H2]. destruct (IH _ H2) as [L G]. split; [cbn; now f_equal|].
    intros i x. cbn [value_read]. destruct (lex_eqb j i) eqn:E; [|apply G]. apply lex_eqb_eq in E as ->. intros X. now injection X as <-.
Qed.

Lemma copy_reads programs h sched h' r rs s :
  Forall (Forall (flow_op h)) programs -> indices_untouched programs ->
  valid h s -> shape_of s <> [] -> (forall a, In a (index_addrs s) -> untouched programs a) ->
  exec sched h (copy_t s :: map thread programs) = (h', Ret r :: map Ret rs) ->
  exists xs, r = Ok xs /\ length xs = length (cart (shape_of s))
    /\ forall i x, value_read (cart (shape_of s)) xs i = Ok x -> gives h (possible h programs) s i x.
Proof.
  intros F HI V Hne Hu H.
  set (reads := map (Read s) (cart (shape_of s))). rewrite (copy_thread s Hne) in H. fold reads in H.
  assert (Hrd : forall o, In o reads -> exists i, o = Read s i /\ in_box i (shape_of s)).
  { intros o Ho. apply in_map_iff in Ho as (i & <- & Hi). exists i. split; [reflexivity|]. now apply In_cart. }
  assert (St : forall t ix v, stated (reads :: programs) (Assign t ix v) -> stated programs (Assign t ix v)).
  { intros t ix v (ops & [<-|A] & B); [destruct (Hrd _ B) as (? & ? & _); discriminate|]. now exists ops. }
  destruct (C100_values (reads :: programs) h sched h' (r :: rs)) as [X _].
  - constructor; [|exact F]. apply Forall_forall. intros o Ho. destruct (Hrd o Ho) as (i & -> & Hi). now split.
  - intros o t a (ops & Ho1 & Ho2) Ht Ha t' ix v Hs. apply St in Hs. destruct Ho1 as [<-|Ho1].
    + destruct (Hrd _ Ho2) as (i & -> & _). cbn [arrays_of In] in Ht. destruct Ht as [<-|[]]. eapply Hu; eassumption.
    + eapply (HI o t a); try eassumption. now exists ops.
  - exact H.
  - inversion X as [|? ? ? ? (xs & -> & Hxs) _]; subst. exists xs. split; [reflexivity|].
    destruct (reads_all _ s _ _ Hxs) as [L G]. split; [exact L|]. intros i x E.
    destruct (G i x E) as [(a & p & K & P)|K]; [left|now right].
    exists a, p. split; [exact K|]. eapply possible_reads; [|exact P]. intros o Ho. destruct (Hrd o Ho) as (j & -> & _). eauto.
Qed.

(** One thread converts [s] to class [c] while the others perform [programs]. *)
Theorem C112_values : forall programs h sched h' r rs s c u,
  Forall (Forall (flow_op h)) programs -> indices_untouched programs ->
  valid h s -> shape_of s <> [] -> (forall a, In a (index_addrs s) -> untouched programs a) ->
  exec sched h (copy_t s :: map thread programs) = (h', Ret r :: map Ret rs) ->
  class_rank c (shape_of s) -> c <> CDM ->
  exists xs, r = Ok xs
  /\ ((c = CCSR -> Exists (fun x => conv_value (unspecified_of s) u x <> u) xs) ->
      exists s' h'', copy_of c s u xs h' = Ok (s', h'') /\ is_class c s'
        /\ shape_of s' = shape_of s /\ unspecified_of s' = u /\ extends h' h'' /\ fresh h' s'
        /\ forall i, in_box i (shape_of s) -> exists x,
             gives h (possible h programs) s i x /\ get_elem h'' s' i = Ok (conv_value (unspecified_of s) u x)).
Proof.
  intros programs h sched h' r rs s c u F HI V Hne Hu H Hc Hd.
  destruct (copy_reads programs h sched h' r rs s F HI V Hne Hu H) as (xs & -> & L & G).
  exists xs. split; [reflexivity|]. intros Hcsr.
  pose proof V as (f0 & Hr0). pose proof (repr_nonneg _ _ _ Hr0) as Hn.
  set (g := fun i => match value_read (cart (shape_of s)) xs i with Ok x => x | Raise _ => VNone end).
  assert (Hg : forall i, in_box i (shape_of s) -> value_read (cart (shape_of s)) xs i = Ok (g i)).
  { intros i Hi. unfold g. apply In_cart in Hi. destruct (value_read_some _ xs i Hi L) as (x & ->). reflexivity. }
  destruct (build_values c h' (shape_of s) (unspecified_of s) u g (value_read (cart (shape_of s)) xs) Hd Hn Hg)
    as (s' & h'' & E1 & E2 & E3 & E4 & E5 & E6 & E7).
  - destruct c; cbn [class_rank class_ok] in *; try assumption; try congruence. split; [exact Hc|].
    specialize (Hcsr eq_refl). apply Exists_exists in Hcsr as (x & Hx & Hne').
    destruct (value_read_all _ xs x (sorted_NoDup _ (cart_sorted (shape_of s))) L Hx) as (i & Hi & Ei).
    exists i. apply In_cart in Hi. split; [exact Hi|]. pose proof (Hg i Hi) as Eg. rewrite Ei in Eg. injection Eg as <-. exact Hne'.
  - exists s', h''. split; [exact E1|]. split; [exact E2|]. split; [exact E3|]. split; [exact E4|]. split; [exact E5|]. split; [exact E6|].
    intros i Hi. exists (g i). split; [exact (G i (g i) (Hg i Hi))|rewrite <- E3 in Hi; exact (repr_get _ _ _ _ E7 Hi)].
Qed.
Print Assumptions C112_values.

(** If no thread assigns to an element of [s], the copy is what a conversion made
    before the threads start gives. *)
Theorem C112_quiet : forall programs h sched h' r rs s c u,
  Forall (Forall (flow_op h)) programs -> indices_untouched programs ->
  valid h s -> shape_of s <> [] -> (forall a, In a (index_addrs s) -> untouched programs a) ->
  (forall t ix value j a p i, stated programs (Assign t ix value) -> in_box j (slice_shape ix (shape_of t)) ->
     kept h t (source_index ix (shape_of t) j) a p -> ~ kept h s i a p) ->
  exec sched h (copy_t s :: map thread programs) = (h', Ret r :: map Ret rs) ->
  class_rank c (shape_of s) -> c <> CDM ->
  (c = CCSR -> exists i x, in_box i (shape_of s) /\ get_elem h s i = Ok x /\ conv_value (unspecified_of s) u x <> u) ->
  exists xs s' h'', r = Ok xs /\ copy_of c s u xs h' = Ok (s', h'') /\ is_class c s'
    /\ shape_of s' = shape_of s /\ unspecified_of s' = u /\ extends h' h'' /\ fresh h' s'
    /\ forall i x, in_box i (shape_of s) -> get_elem h s i = Ok x ->
         get_elem h'' s' i = Ok (conv_value (unspecified_of s) u x).
Proof.
  intros programs h sched h' r rs s c u F HI V Hne Hu Hq H Hc Hd Hcsr.
  assert (Q : forall i x y, in_box i (shape_of s) -> gives h (possible h programs) s i x -> get_elem h s i = Ok y -> x = y).
  { intros i x y Hi [(a & p & K & P)|[K ->]] E.
    - rewrite (get_kept h s i a p V Hi K) in E. destruct P as [a p x P|? ? ? ? ? ? ? S B K'|? ? ? ? ? ? ? ? ? S B K'|? ? ? ? ? ? S B K'];
        [congruence| | |]; exfalso; eapply (Hq _ _ _ _ _ _ i S B K'); exact K.
    - rewrite (get_unkept h s i V Hi K) in E. congruence. }
  destruct (C112_values programs h sched h' r rs s c u F HI V Hne Hu H Hc Hd) as (xs & -> & X).
  exists xs. destruct X as (s' & h'' & E1 & E2 & E3 & E4 & E5 & E6 & E7).
  - intros Ec. destruct (Hcsr Ec) as (i & x & Hi & Ex & Hx). apply Exists_exists. exists x. split; [|exact Hx].
    destruct (copy_reads programs h sched h' _ rs s F HI V Hne Hu H) as (xs' & Exs & L & G). injection Exs as <-.
    apply In_cart in Hi as Hi'. destruct (value_read_some _ xs i Hi' L) as (y & Ey).
    rewrite <- (Q i y x Hi (G i y Ey) Ex). exact (value_read_in _ _ _ _ Ey).
  - exists s', h''. repeat (split; [first [reflexivity|eassumption]|]). intros i x Hi Ex.
    destruct (E7 i Hi) as (y & Hy & Gy). now rewrite <- (Q i y x Hi Hy Ex).
Qed.
Print Assumptions C112_quiet.

(** The elements of the copy need not have been there at the same time: here the
    copy of [[1, 2]], made while another thread assigns 7 to both, has 1 and 7,
    which the array never had. *)
Definition pair : storage := SStrided (Str [2] [1] (Buf 2 0 0 VNone)).
Lemma pair_valid : valid [[VInt 1; VInt 2]] pair.
Proof.
  eexists (fun i => nth (Z.to_nat (spos (Str [2] [1] (Buf 2 0 0 VNone)) i)) [VInt 1; VInt 2] VNone). exists [VInt 1; VInt 2]. split; [reflexivity|].
  split; [|reflexivity]. constructor; cbn [sshape sstrides sdata bsize boff]; try lia; try (cbn; lia); try reflexivity; try (repeat constructor; lia).
  - intros i Hi. apply box1 in Hi as (x & -> & Hx). unfold spos. cbn -[Z.mul Z.add]. lia.
  - intros i j Hi Hj. apply box1 in Hi as (x & -> & Hx). apply box1 in Hj as (y & -> & Hy). unfold spos. cbn -[Z.mul Z.add]. intros Exy. f_equal. lia.
Qed.
Theorem C112_mixture : exists sched h h' s programs xs s' h'',
  Forall (Forall (flow_op h)) programs /\ valid h s
  /\ exec sched h (copy_t s :: map thread programs) = (h', [Ret (Ok xs); Ret (Ok [])])
  /\ copy_of CCOO s VNone xs h' = Ok (s', h'')
  /\ forall n, exists i, in_box i (shape_of s)
       /\ get_elem (fst (exec (firstn n sched) h (copy_t s :: map thread programs))) s i <> get_elem h'' s' i.
Proof.
  exists [0; 1; 1; 0]%nat, [[VInt 1; VInt 2]], [[VInt 7; VInt 7]], pair,
    [[Assign pair everything (SrcSeq (VSeq [VInt 7; VInt 7]))]], [VInt 1; VInt 7].
  eexists _, _. split; [|split; [|split; [vm_compute; reflexivity|split; [vm_compute; reflexivity|]]]].
  - constructor; [|constructor]. constructor; [|constructor]. split; [exact pair_valid|]. split; [repeat constructor; lia|].
    split; [apply everything_ok; lia|]. split; [exact I|]. split; [reflexivity|]. split; [discriminate|]. repeat constructor.
  - exact pair_valid.
  - intros n. assert (B : forall i, 0 <= i < 2 -> in_box [i] [2]) by (intros i Hi; constructor; [exact Hi|constructor]).
    destruct n as [|[|[|[|n]]]]; [exists [1]|exists [1]|exists [0]|exists [0]|rewrite firstn_all2 by (cbn; lia); exists [0]];
      (split; [apply B; lia|]); vm_compute; discriminate.
Qed.
Print Assumptions C112_mixture.

(** A sparse array is copied while two threads assign to it. *)
Example C112_case :
  let programs := [[Assign sparse_view everything (SrcSeq (VSeq (map VInt [1; 2; 3; 4; 5; 6])))];
                   [Assign dense_view everything (SrcSto reversed_view)]] in
  Forall (Forall (flow_op shared_lists)) programs /\ indices_untouched programs
  /\ valid shared_lists sparse_view /\ shape_of sparse_view <> []
  /\ (forall a, In a (index_addrs sparse_view) -> untouched programs a)
  /\ exists sched h' r rs, exec sched shared_lists (copy_t sparse_view :: map thread programs) = (h', Ret r :: map Ret rs)
     /\ r = Ok (map VInt [10; 0; 3; 0; 0; 6]).
Proof.
  pose proof sparse_view_valid as V1. pose proof dense_view_valid as V2. pose proof reversed_view_valid as V3.
  pose proof everything_ok as OK. cbv zeta.
  match goal with |- _ /\ indices_untouched ?P /\ _ => set (programs := P) end.
  assert (U : forall (s : storage) ix value, stated programs (Assign s ix value) -> data_addr s = 0%nat).
  { intros s ix value (ops & Hops & Ho). cbn [programs In] in Hops. destruct Hops as [<-|[<-|[]]]; cbn [In] in Ho;
      repeat match goal with X : _ \/ _ |- _ => destruct X end; try contradiction; try discriminate;
      match goal with X : Assign _ _ _ = Assign _ _ _ |- _ => injection X as <- _ _; reflexivity end. }
  split; [|split; [|split; [exact V1|split; [discriminate|split]]]].
  - constructor; [constructor; [|constructor]|constructor; [constructor; [|constructor]|constructor]].
    + split; [exact V1|]. split; [repeat constructor; lia|]. split; [apply OK; lia|]. split; [split; [exact I|discriminate]|].
      split; [reflexivity|]. split; [discriminate|]. repeat constructor.
    + split; [exact V2|]. split; [repeat constructor; lia|]. split; [apply OK; lia|]. split; [exact I|].
      split; [exact V3|]. split; [reflexivity|discriminate].
  - intros o s a (ops & Hops & Ho) Hs Ha s' ix value Hs'. rewrite (U _ _ _ Hs'). cbn [programs In] in Hops.
    destruct Hops as [<-|[<-|[]]]; cbn [In] in Ho; repeat match goal with X : _ \/ _ |- _ => destruct X end; try contradiction; subst o;
      cbn [arrays_of In] in Hs; repeat match goal with X : _ \/ _ |- _ => destruct X end; try contradiction; subst s; cbn in Ha;
      repeat match goal with X : _ \/ _ |- _ => destruct X end; try contradiction; subst a; discriminate.
  - intros a Ha s ix value Hs. rewrite (U _ _ _ Hs). cbn in Ha. destruct Ha as [<-|[]]. discriminate.
  - eexists (repeat 0 3 ++ repeat 1 30 ++ repeat 2 30 ++ repeat 0 40)%nat, _, _, [Ok []; Ok []].
    split; [vm_compute; reflexivity|reflexivity].
Qed.

(** C114: copies of arrays other threads assign to, made in one list access. *)
From Verif Require Import Py SliceTools Basics Storage Spec SliceFacts IndexFacts CompressFacts ReduceFacts SolverFacts
  SolveFacts Repr ReprFacts ViewFacts BuildFacts SparseFacts ConvFacts FromFacts MapFacts DMFacts ReadFacts WriteFacts RefineFacts AliasFacts
  PropRead PropWrite PropLoop Threads ThreadFacts PropThreads PropRaces PropFlow Copies PropCopies.
From Coq Require Import List.
Import ListNotations.

(** [copy()] of these reads the data list once, with a slice (storage.py:316-318,
    514-517), which is one access under the interpreter lock. *)
Fixpoint copied_at_once (s : storage) : Prop :=
  match s with
  | SBuffer _ | SCOO _ _ _ | SFlatCOO _ _ _ | SCSR _ _ _ _ => True
  | SDM _ _ _ _ _ d => copied_at_once d
  | _ => False
  end.

(** * New lists do not disturb running threads *)
Lemma nth_error_front {X} (l m : list X) a : (a < length l)%nat -> nth_error (l ++ m) a = nth_error l a.
Proof. intros H. now apply nth_error_app1. Qed.
Lemma hget_front h m a p : (a < length h)%nat -> hget (h ++ m) a p = hget h a p.
Proof. intros H. unfold hget, cell. now rewrite (nth_error_front h m a H). Qed.
Lemma set_nth_front {X} (l m : list X) a v : (a < length l)%nat -> set_nth a v (l ++ m) = set_nth a v l ++ m.
Proof.
  revert a. induction l as [|x l IH]; intros [|a] H; cbn in *; try lia; [reflexivity|]. f_equal. apply IH. lia.
Qed.
Lemma hput_front h m a p v : (a < length h)%nat -> hput (h ++ m) a p v = (h' <- hput h a p v ;; Ok (h' ++ m)).
Proof.
  intros H. unfold hput, cell. rewrite (nth_error_front h m a H). destruct (nth_error h a) as [l|]; [|reflexivity]. cbn [bind].
  destruct (pyset l p v) as [l'|e]; [|reflexivity]. cbn [bind]. now rewrite set_nth_front.
Qed.
Lemma hput_size h a p v h' : hput h a p v = Ok h' -> length h' = length h.
Proof. intros E. destruct (hput_ok _ _ _ _ _ E) as (l & _ & _ & ->). apply set_nth_length. Qed.
Lemma sizes_inside h a p : 0 <= p < sizes h a -> (a < length h)%nat.
Proof. unfold sizes. destruct (nth_error h a) eqn:E; [intros _; apply nth_error_Some; congruence|lia]. Qed.
Lemma hget_inside h a p v : hget h a p = Ok v -> (a < length h)%nat.
Proof. unfold hget, cell. destruct (nth_error h a) eqn:E; [intros _; apply nth_error_Some; congruence|discriminate]. Qed.

Section Beside.
Variable h0 : heap.
Variable K : nat -> Prop.
Variable V : nat -> Z -> pyval -> Prop.
Variable R : nat -> Z -> Prop.
Variable W : nat -> Z -> pyval -> Prop.
Variable m : heap.
Lemma advance_beside {A} (Q : res A -> Prop) h t h' t' : length h = length h0 -> safe h0 K V R W Q t -> advance h t = (h', t') ->
  advance (h ++ m) t = (h' ++ m, t') /\ length h' = length h0.
Proof.
  intros L Ht E. destruct t as [r|a p k|a p v k]; cbn [advance safe] in *.
  - injection E as <- <-. now split.
  - assert (Ha : (a < length h)%nat).
    { rewrite L. destruct Ht as [(H1 & _)|(_ & v & Hv & _)]; [exact (sizes_inside _ _ _ H1)|exact (hget_inside _ _ _ _ Hv)]. }
    rewrite (hget_front h m a p Ha). destruct (hget h a p); injection E as <- <-; now split.
  - assert (Ha : (a < length h)%nat) by (rewrite L; exact (sizes_inside _ _ _ (proj1 Ht))).
    rewrite (hput_front h m a p v Ha). destruct (hput h a p v) as [h1|] eqn:Ep; cbn [bind]; injection E as <- <-; split; try reflexivity; [|exact L].
    now rewrite (hput_size _ _ _ _ _ Ep).
Qed.
Lemma exec_beside {A} : forall sched h (ts : list (prog A)) Qs h' ts', length h = length h0 -> invariant h0 K V h ->
  Forall2 (fun Q t => safe h0 K V R W Q t) Qs ts ->
  exec sched h ts = (h', ts') -> exec sched (h ++ m) ts = (h' ++ m, ts') /\ length h' = length h0.
Proof.
  induction sched as [|j sched IH]; intros h ts Qs h' ts' L Hh HF E; cbn [exec] in E |- *; [injection E as <- <-; now split|].
  destruct (nth_error ts j) as [t|] eqn:Ej; [|eapply IH; eassumption].
  destruct (advance h t) as [h1 t1] eqn:Ea.
  assert (HQ : exists Q, nth_error Qs j = Some Q /\ safe h0 K V R W Q t).
  { clear -HF Ej. revert j Ej. induction HF as [|Q u Qs us HQ HF IHF]; intros [|j] Ej; cbn in *; try discriminate.
    - injection Ej as <-. now exists Q.
    - now apply IHF. }
  destruct HQ as (Q & EQ & HQ). destruct (advance_beside Q h t h1 t1 L HQ Ea) as [E1 L1]. rewrite E1.
  destruct (advance_safe h0 K V R W Q h t h1 t1 Hh HQ Ea) as [I1 S1].
  apply (IH h1 (set_nth j t1 ts) Qs h' ts' L1 I1); [|exact E].
  clear -HF EQ S1. revert j EQ. induction HF as [|Q' u Qs us HQ' HF IHF]; intros [|j] EQ; cbn in *; try discriminate.
  - injection EQ as ->. now constructor.
  - constructor; [exact HQ'|]. now apply IHF.
Qed.
End Beside.

(** * Threads, at any moment *)
Definition whatever (h : heap) (programs : list (list op)) : list (res (list pyval) -> Prop) :=
  map (fun ops r => match r with Ok xs => reads_give (gives h (possible h programs)) ops xs | Raise _ => False end) programs.
Lemma threads_safe programs h : Forall (Forall (flow_op h)) programs -> indices_untouched programs ->
  Forall2 (fun Q t => safe h (untouched programs) (possible h programs) (fun _ _ => True) (fun _ _ _ => True) Q t)
    (whatever h programs) (map thread programs).
Proof.
  intros F HI. unfold whatever. set (K := untouched programs). set (P := possible h programs).
  assert (G : forall l, (forall ops, In ops l -> In ops programs) -> Forall (Forall (flow_op h)) l ->
    Forall2 (fun (Q0 : res (list pyval) -> Prop) t => safe h K P (fun _ _ => True) (fun _ _ _ => True) Q0 t)
      (map (fun ops r => match r with Ok xs => reads_give (gives h P) ops xs | Raise _ => False end) l) (map thread l)).
  { induction l as [|ops l IH]; intros Hl Fl; [constructor|]. inversion Fl as [|? ? Fo Fr]; subst. cbn [map]. constructor.
    - assert (St : forall o, In o ops -> stated programs o) by (intros o Ho; exists ops; split; [apply Hl; now left|exact Ho]).
      apply (thread_safe h K P _ _ False ops); [eapply Forall_impl; [apply flow_or|exact Fo]|..|exact (fun _ _ _ _ _ => I)].
      + intros o s a Ho. apply (HI o). now apply St.
      + intros s ix value Ho Hk. now apply (Hk s ix value (St _ Ho)).
      + intros s ix value j a p x Ho Hj Hk Hx. split; [|exact I]. apply St in Ho. destruct value as [v|t]; cbn [supplies] in Hx.
        * destruct Hx as [Hx|[]]. eapply p_listed; eassumption.
        * destruct Hx as [(b & q & Hx & Hy)|[Hn ->]]; [eapply p_copied; eassumption|eapply p_unspecified; eassumption].
    - apply IH; [|exact Fr]. intros ops' Ho. apply Hl. now right. }
  now apply G.
Qed.

Lemma at_any_moment programs h sched h1 ts : Forall (Forall (flow_op h)) programs -> indices_untouched programs ->
  exec sched h (map thread programs) = (h1, ts) ->
  length h1 = length h /\ invariant h (untouched programs) (possible h programs) h1
  /\ Forall2 (fun Q t => safe h (untouched programs) (possible h programs) (fun _ _ => True) (fun _ _ _ => True) Q t) (whatever h programs) ts.
Proof.
  intros F HI E. assert (I0 : invariant h (untouched programs) (possible h programs) h).
  { split; [|reflexivity]. split; [reflexivity|]. intros a p x _ Ex. now constructor. }
  pose proof (threads_safe programs h F HI) as S.
  destruct (exec_beside _ _ _ _ _ [] _ _ _ _ _ _ eq_refl I0 S E) as [_ L].
  destruct (exec_safe _ _ _ _ _ _ _ _ _ _ _ I0 S E) as [I1 S1]. auto.
Qed.

Lemma still_valid programs h h1 s : length h1 = length h -> invariant h (untouched programs) (possible h programs) h1 ->
  valid h s -> (forall a, In a (index_addrs s) -> untouched programs a) -> valid h1 s.
Proof.
  intros L [[I1 _] I2] V Hu. apply (valid_keeps s h h1 V). split; [intros a Ha; now apply I2, Hu|].
  intros l El. destruct (nth_error h1 (data_addr s)) as [l'|] eqn:E1.
  - exists l'. split; [reflexivity|]. specialize (I1 (data_addr s)). unfold sizes in I1. rewrite El, E1 in I1. unfold zlen in I1. lia.
  - apply nth_error_None in E1. assert (data_addr s < length h)%nat by (apply nth_error_Some; congruence). lia.
Qed.

(** An array whose lists are new, or assigned to by no thread, stays as it is
    while the threads go on, and they do not notice it. *)
Lemma beside_threads programs h sched h1 ts t h2 f : Forall (Forall (flow_op h)) programs -> indices_untouched programs ->
  exec sched h (map thread programs) = (h1, ts) ->
  extends h1 h2 -> repr h2 t f -> (forall a, In a (addrs t) -> (length h1 <= a)%nat \/ untouched programs a) ->
  forall sched' h3 ts', exec sched' h2 ts = (h3, ts') ->
    repr h3 t f /\ exists h3', exec sched' h1 ts = (h3', ts') /\ extends h3' h3.
Proof.
  intros F HI E (m & ->) Hr Ha sched' h3 ts' E3.
  destruct (at_any_moment programs h sched h1 ts F HI E) as (L & I1 & S1).
  destruct (exec sched' h1 ts) as [h3' ts3] eqn:E1.
  destruct (exec_beside _ _ _ _ _ m _ _ _ _ _ _ L I1 S1 E1) as [E2 L3]. rewrite E2 in E3. injection E3 as <- <-.
  destruct (exec_safe _ _ _ _ _ _ _ _ _ _ _ I1 S1 E1) as [I3 _].
  split; [|exists h3'; split; [reflexivity|now exists m]].
  eapply repr_frame; [|exact Hr]. intros a Hin. destruct (le_lt_dec (length h1) a) as [Hle|Hlt].
  - rewrite !nth_error_app2 by lia. now rewrite L, L3.
  - destruct (Ha a Hin) as [|Hk]; [lia|]. rewrite !nth_error_app1 by lia.
    rewrite (proj2 I3 a Hk). symmetry. exact (proj2 I1 a Hk).
Qed.

(** At any moment while other threads perform [programs], [copy()] gives an array
    with the elements [s] has at that moment; it keeps them, whatever the threads
    do afterwards, and they do what they would have done without the copy. *)
Theorem C114_snapshot : forall programs h s sched h1 ts,
  Forall (Forall (flow_op h)) programs -> indices_untouched programs ->
  valid h s -> copied_at_once s -> (forall a, In a (index_addrs s) -> untouched programs a) ->
  exec sched h (map thread programs) = (h1, ts) ->
  exists t h2, copy h1 s None = Ok (t, h2) /\ shape_of t = shape_of s /\ unspecified_of t = unspecified_of s /\ valid h2 t
  /\ forall sched' h3 ts', exec sched' h2 ts = (h3, ts') ->
       (forall i, in_box i (shape_of s) -> exists x, get_elem h1 s i = Ok x /\ get_elem h3 t i = Ok x)
       /\ exists h3', exec sched' h1 ts = (h3', ts') /\ extends h3' h3.
Proof.
  intros programs h s sched h1 ts F HI V Hc Hu E.
  destruct (at_any_moment programs h sched h1 ts F HI E) as (L & I1 & S1).
  destruct (still_valid programs h h1 s L I1 V Hu) as (f & Hr).
  destruct (copy_ok s h1 f None Hr) as (t & h2 & E1 & E2 & E3 & E4 & E5 & E6 & E7 & _). cbv zeta in *. cbn [new_unspec] in *.
  exists t, h2. split; [exact E1|]. split; [exact E2|]. split; [exact E3|]. split; [eexists; exact E5|].
  assert (Ha : forall a, In a (addrs t) -> (length h1 <= a)%nat \/ untouched programs a).
  { intros a [<-|Hin]; [now left|right]. rewrite E7 in Hin. now apply Hu. }
  intros sched' h3 ts' E'. destruct (beside_threads programs h sched h1 ts t h2 _ F HI E E4 E5 Ha sched' h3 ts' E') as [Hr3 X].
  split; [|exact X]. intros i Hi. exists (f i). split; [now apply repr_get|]. rewrite (repr_get _ _ _ _ Hr3) by now rewrite E2.
  now rewrite conv_value_id.
Qed.
Print Assumptions C114_snapshot.

(** The same of the conversions between sparse classes that copy the data list as
    a whole (storage.py:663-673, 745-751, 824-828).  They read the indices first,
    which no thread assigns to; that they are read at the moment of the copy is a
    simplification without effect. *)
Definition converted_at_once (c : cls) (s : storage) : Prop :=
  match c, s with
  | CCOO, SFlatCOO _ _ _ | CFlatCOO, SCOO _ _ _ | CCSR, SCOO _ _ _ | CCSR, SFlatCOO _ _ _ => True
  | _, _ => False
  end.
Theorem C114_converted : forall programs h s c sched h1 ts,
  Forall (Forall (flow_op h)) programs -> indices_untouched programs ->
  valid h s -> converted_at_once c s -> positive (shape_of s) -> class_rank c (shape_of s) ->
  (forall a, In a (index_addrs s) -> untouched programs a) ->
  exec sched h (map thread programs) = (h1, ts) ->
  (c = CCSR -> some_element_stays h1 s (unspecified_of s)) ->
  exists t h2, as_storage c h1 s None = Ok (t, h2) /\ is_class c t /\ shape_of t = shape_of s /\ unspecified_of t = unspecified_of s /\ valid h2 t
  /\ forall sched' h3 ts', exec sched' h2 ts = (h3, ts') ->
       (forall i, in_box i (shape_of s) -> exists x, get_elem h1 s i = Ok x /\ get_elem h3 t i = Ok x)
       /\ exists h3', exec sched' h1 ts = (h3', ts') /\ extends h3' h3.
Proof.
  intros programs h s c sched h1 ts F HI V Hc Hp Hk Hu E Hst.
  destruct (at_any_moment programs h sched h1 ts F HI E) as (L & I1 & S1).
  pose proof (still_valid programs h h1 s L I1 V Hu) as V1. pose proof V1 as (f & Hr).
  assert (Hne : shape_of s <> []).
  { destruct s, c; try contradiction; cbn in *; try congruence; destruct shape; try discriminate; congruence. }
  destruct (C24_conversion c h1 s None V1 Hp Hne Hk Hst) as (t & h2 & E1 & E2 & E3 & V2 & E5 & E6 & E7). cbv zeta in *. cbn [chosen] in *.
  exists t, h2. split; [exact E1|]. split; [exact E2|]. split; [exact E6|]. split; [exact E3|]. split; [exact V2|].
  assert (Ha : forall a, In a (addrs t) -> (length h1 <= a)%nat \/ untouched programs a).
  { assert (E1' : flat_fromobject c h1 (SrcSto s) (fo_unspecified None) = Ok (t, h2)) by (destruct c; try exact E1; destruct s; contradiction).
    destruct (flat_fromobject_made _ _ _ _ _ _ E1') as [_ [(X & _)|M]].
    - injection X as <-. destruct s, c; contradiction.
    - intros a Hin. left. exact (proj1 (md_range _ _ _ M a Hin)). }
  destruct V2 as (g & Hg). intros sched' h3 ts' E'.
  destruct (beside_threads programs h sched h1 ts t h2 g F HI E E5 Hg Ha sched' h3 ts' E') as [Hr3 X].
  split; [|exact X]. intros i Hi. destruct (E7 i Hi) as (x & Ex & X1 & X2). exists x. split; [exact Ex|].
  assert (Eg : get_elem h2 t i = Ok x).
  { destruct (veqb x (unspecified_of s)) eqn:Ev.
    - apply veqb_eq in Ev. rewrite (X1 Ev). now rewrite Ev.
    - apply X2. intros ->. rewrite veqb_refl in Ev. discriminate. }
  rewrite <- E6 in Hi. rewrite (repr_get _ _ _ _ Hg Hi) in Eg. now rewrite (repr_get _ _ _ _ Hr3 Hi).
Qed.
Print Assumptions C114_converted.

(** [copy()] of a Strided array, and [copy(unspecified=u)] of any, read one element
    after the other: C112 applies to the former, with the reads and the new array
    of the conversion to Strided. *)
Theorem C114_strided : forall h t u,
  valid h (SStrided t) -> sshape t <> [] ->
  exists xs, run (copy_t (SStrided t)) h = (h, Ok xs)
  /\ copy h (SStrided t) u = copy_of CStrided (SStrided t) (chosen (bunspec (sdata t)) u) xs h.
Proof.
  intros h t u V Hne. pose proof V as (f & Hr). exists (map f (cart (sshape t))).
  assert (G : forall i, In i (cart (sshape t)) -> get_value h (SrcSto (SStrided t)) i = Ok (f i)).
  { intros i Hi. apply In_cart in Hi. cbn [get_value]. destruct i as [|z i]; [apply Forall2_len in Hi; destruct (sshape t); [congruence|discriminate]|].
    now apply repr_get. }
  split; [rewrite (run_copy _ h V Hne); cbn [shape_of]; rewrite (mapM_ok _ f) by exact G; reflexivity|].
  cbn [copy]. rewrite (strided_copy_ok h t f u Hr). cbn [bind]. unfold copy_of. cbn [build shape_of unspecified_of].
  pose proof (repr_nonneg _ _ _ Hr) as Hn. cbn [shape_of] in Hn.
  destruct (strided_build_ok (value_read (cart (sshape t)) (map f (cart (sshape t)))) f (sshape t) (bunspec (sdata t)) (chosen (bunspec (sdata t)) u) h Hn)
    as [Eb _]; [intros i Hi; apply value_read_ok; now apply In_cart|]. rewrite Eb. cbn [bind]. rewrite zlen_map. unfold zlen. rewrite (BuildFacts.cart_length _ Hn).
  destruct u; reflexivity.
Qed.
Print Assumptions C114_strided.

(** [sparse_view] is copied, and converted to FlatCOO, when one thread has made one
    of its three assignments; at the end of the threads the copies still have the
    values of that moment. *)
Example C114_case :
  let programs := [[Assign sparse_view everything (SrcSeq (VSeq (map VInt [1; 2; 3; 4; 5; 6])))];
                   [Assign dense_view everything (SrcSto reversed_view)]] in
  Forall (Forall (flow_op shared_lists)) programs /\ indices_untouched programs
  /\ valid shared_lists sparse_view /\ copied_at_once sparse_view /\ converted_at_once CFlatCOO sparse_view
  /\ positive (shape_of sparse_view) /\ class_rank CFlatCOO (shape_of sparse_view)
  /\ (forall a, In a (index_addrs sparse_view) -> untouched programs a)
  /\ exists sched h1 ts t h2 u h2', exec sched shared_lists (map thread programs) = (h1, ts)
     /\ copy h1 sparse_view None = Ok (t, h2) /\ as_storage CFlatCOO h1 sparse_view None = Ok (u, h2')
     /\ exists sched' h3 h3' rs, exec sched' h2 ts = (h3, map Ret rs) /\ exec sched' h2' ts = (h3', map Ret rs)
        /\ map (fun i => get_elem h3 t [i]) [0; 1; 2; 3; 4; 5] = map (fun x => Ok (VInt x)) [1; 0; 20; 0; 0; 30]
        /\ map (fun i => get_elem h3' u [i]) [0; 1; 2; 3; 4; 5] = map (fun x => Ok (VInt x)) [1; 0; 20; 0; 0; 30]
        /\ get_elem h3 sparse_view [2] = Ok (VInt 3).
Proof.
  destruct C112_case as (A1 & A2 & A3 & A4 & A5 & _). cbv zeta in *.
  split; [exact A1|]. split; [exact A2|]. split; [exact A3|]. split; [exact I|]. split; [exact I|].
  split; [repeat constructor; lia|]. split; [cbn; discriminate|]. split; [exact A5|].
  eexists (repeat 0 2)%nat, _, _, _, _, _, _. split; [vm_compute; reflexivity|]. split; [vm_compute; reflexivity|]. split; [vm_compute; reflexivity|].
  eexists (repeat 0 30 ++ repeat 1 30)%nat, _, _, [Ok []; Ok []].
  split; [vm_compute; reflexivity|]. split; [vm_compute; reflexivity|]. split; [vm_compute; reflexivity|]. split; vm_compute; reflexivity.
Qed.

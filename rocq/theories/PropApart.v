(** C95: threads that use arrays of all classes which share their data lists, but
    no element that one of them writes. *)
From Verif Require Import Py SliceTools Basics Storage Spec SliceFacts IndexFacts SolverFacts Repr ReprFacts SparseFacts
  CompressFacts ReduceFacts MapFacts DMFacts WriteFacts RefineFacts PropWrite Threads ThreadFacts PropThreads PropRaces PropFlow.
From Coq Require Import List.
Import ListNotations.

(** Statements on well-formed arrays of any class: reads of elements, and
    assignments of any list, or of arrays of the right shape, other than those of
    C32. *)
Definition using_op (h : heap) (o : op) : Prop :=
  match o with
  | Read s i => valid h s /\ in_box i (shape_of s)
  | Assign s ix value =>
      valid h s /\ positive (shape_of s) /\ ok_index ix (shape_of s)
      /\ match s with SStrided _ => True | _ => slice_writes s /\ slice_shape ix (shape_of s) <> [] end
      /\ match value with
         | SrcSeq _ => True
         | SrcSto t => valid h t /\ shape_of t = slice_shape ix (shape_of s) /\ shape_of t <> []
                       /\ match t with SDM _ _ _ _ _ _ => positive (shape_of t) | _ => True end
         end
  end.
(** No thread writes an element that another reads or writes. *)
Definition no_conflict (h : heap) (programs : list (list op)) : Prop :=
  forall j k P Q, j <> k -> nth_error programs j = Some P -> nth_error programs k = Some Q ->
  forall o o' a p, In o P -> In o' Q -> writes_at h o a p -> ~ reads_at h o' a p /\ ~ writes_at h o' a p.

Lemma using_flow h o : using_op h o -> flow_op_or True h o.
Proof. destruct o as [s i|s ix [v|t]]; cbn; tauto. Qed.
Lemma using_fits h o : using_op h o -> op_fits o.
Proof.
  destruct o as [s i|s ix value]; cbn [using_op op_fits].
  - intros [V Hi]. split; [|exact (Forall2_len _ _ _ Hi)]. apply (C94_arrays_fit h s V). destruct s; auto. now apply box_positive with i.
  - intros (V & Hp & _ & _ & Hv). split; [apply (C94_arrays_fit h s V); destruct s; auto|]. destruct value as [v|t]; [exact I|].
    destruct Hv as (Vt & Et & _ & Ht). split; [now apply (C94_arrays_fit h t Vt)|]. now rewrite Et.
Qed.

(** * Lists nobody writes *)
Section Pin.
Variable h0 : heap.
Variable kb : nat -> bool.
(** The program that takes what it reads in those lists from [h0]. *)
Fixpoint pin {A} (m : prog A) : prog A :=
  match m with
  | Ret r => Ret r
  | Get a p k => Get a p (fun v => pin (k (if kb a then match hget h0 a p with Ok v0 => v0 | Raise _ => v end else v)))
  | Put a p v k => Put a p v (pin k)
  end.
Definition same_lists (h : heap) : Prop := forall a, kb a = true -> nth_error h a = nth_error h0 a.
Definition avoids {A} (m : prog A) : Prop := within (fun _ _ => True) (fun a _ => kb a = false) m.
Lemma hget_same_lists h a p : same_lists h -> kb a = true -> hget h a p = hget h0 a p.
Proof. intros H Ha. unfold hget, cell. now rewrite (H a Ha). Qed.
Lemma hput_same_lists h a p v h' : same_lists h -> kb a = false -> hput h a p v = Ok h' -> same_lists h'.
Proof.
  intros H Ha E b Hb. rewrite <- (H b Hb). destruct (hput_ok _ _ _ _ _ E) as (l & El & _ & ->). apply set_nth_error_other. congruence.
Qed.
Lemma pin_advance {A} h (m : prog A) : same_lists h -> avoids m ->
  advance h (pin m) = (fst (advance h m), pin (snd (advance h m))) /\ same_lists (fst (advance h m)) /\ avoids (snd (advance h m)).
Proof.
  intros H Hm. destruct m as [r|a p k|a p v k]; cbn [pin advance].
  - cbn [fst snd]. auto.
  - destruct Hm as [_ Hm]. destruct (kb a) eqn:Ea.
    + rewrite (hget_same_lists h a p H Ea). destruct (hget h0 a p) as [v|e]; cbn [fst snd pin]; (split; [reflexivity|]); (split; [exact H|]); [apply Hm|exact I].
    + destruct (hget h a p) as [v|e]; cbn [fst snd pin]; (split; [reflexivity|]); (split; [exact H|]); [apply Hm|exact I].
  - destruct Hm as [Ha Hm]. destruct (hput h a p v) as [h1|e] eqn:E; cbn [fst snd pin].
    + split; [reflexivity|]. split; [exact (hput_same_lists h a p v h1 H Ha E)|exact Hm].
    + split; [reflexivity|]. split; [exact H|exact I].
Qed.
Lemma pin_run {A} (m : prog A) : forall h, same_lists h -> avoids m -> run (pin m) h = run m h /\ same_lists (fst (run m h)).
Proof.
  induction m as [r|a p k IH|a p v k IH]; intros h H Hm; cbn [pin run].
  - split; [reflexivity|exact H].
  - destruct Hm as [_ Hm]. destruct (kb a) eqn:Ea.
    + rewrite (hget_same_lists h a p H Ea). destruct (hget h0 a p) as [v|e]; [apply IH; [exact H|apply Hm]|]. split; [reflexivity|exact H].
    + destruct (hget h a p) as [v|e]; [apply IH; [exact H|apply Hm]|]. split; [reflexivity|exact H].
  - destruct Hm as [Ha Hm]. destruct (hput h a p v) as [h1|e] eqn:E; [|split; [reflexivity|exact H]].
    apply IH; [exact (hput_same_lists h a p v h1 H Ha E)|exact Hm].
Qed.
Lemma map_set_nth {X Y} (f : X -> Y) : forall l n x, map f (set_nth n x l) = set_nth n (f x) (map f l).
Proof. induction l as [|y l IH]; intros [|n] x; cbn; [reflexivity..|]. now rewrite IH. Qed.
Lemma Forall_set_nth {X} (P : X -> Prop) : forall l n x, Forall P l -> P x -> Forall P (set_nth n x l).
Proof. intros l n x H. revert n. induction H as [|y l Hy H IH]; intros [|n] Hx; cbn; constructor; auto. Qed.
Lemma pin_exec {A} : forall sched h (ts : list (prog A)), same_lists h -> Forall avoids ts ->
  exec sched h (map pin ts) = (fst (exec sched h ts), map pin (snd (exec sched h ts))).
Proof.
  induction sched as [|j sched IH]; intros h ts H Hts; cbn [exec]; [reflexivity|]. rewrite nth_error_map.
  destruct (nth_error ts j) as [t|] eqn:Ej; cbn [option_map]; [|now apply IH].
  assert (Ht : avoids t) by (rewrite Forall_forall in Hts; apply Hts; exact (nth_error_In _ _ Ej)).
  destruct (pin_advance h t H Ht) as (E & H1 & H2). rewrite E. destruct (advance h t) as [h1 t1]. cbn [fst snd] in *.
  rewrite <- map_set_nth. apply IH; [exact H1|]. now apply Forall_set_nth.
Qed.
Lemma pin_in_turn {A} : forall (ts : list (prog A)) h, same_lists h -> Forall avoids ts -> in_turn (map pin ts) h = in_turn ts h.
Proof.
  unfold in_turn. induction ts as [|t ts IH]; intros h H Hts; [reflexivity|]. inversion Hts as [|? ? Ht Hr]; subst. cbn [map fold_left].
  destruct (pin_run t h H Ht) as [-> H1]. now apply IH.
Qed.
(** What a pinned program may read and write. *)
Lemma pin_within {A} (R : nat -> Z -> Prop) (W : nat -> Z -> pyval -> Prop) (Q : res A -> Prop) m :
  safe h0 (fun a => kb a = true) (fun _ _ _ => True) R W Q m ->
  within (fun a p => R a p /\ 0 <= p \/ kb a = true) (fun a p => (exists v, W a p v) /\ 0 <= p /\ kb a = false) (pin m).
Proof.
  induction m as [r|a p k IH|a p v k IH]; cbn [safe pin within]; [auto| |].
  - intros [(H1 & H2 & H3)|(H1 & v & H2 & H3)].
    + split; [left; split; [exact H2|lia]|]. intros v. apply IH, H3, I.
    + split; [now right|]. intros w. rewrite H1, H2. now apply IH.
  - intros (H1 & H2 & (_ & H3) & H4). split; [|now apply IH]. split; [now exists v|]. split; [lia|]. now destruct (kb a).
Qed.
End Pin.

(** Any number of threads read elements, and assign lists and arrays, of arrays of
    all classes that may share their data lists, as long as no thread writes an
    element that another reads or writes: under every schedule the lists end up as
    if the threads had run one after the other, and every thread gets what it would
    get alone. *)
Theorem C95_any_arrays : forall programs h sched h' rs,
  Forall (Forall (using_op h)) programs -> indices_untouched programs -> no_conflict h programs ->
  exec sched h (map thread programs) = (h', map Ret rs) ->
  h' = perform_all h programs /\ rs = map (fun ops => snd (perform h ops)) programs.
Proof.
  intros programs h sched h' rs F HI HC H.
  set (kb := fun a => negb (existsb (Nat.eqb a) (flat_map written programs))).
  assert (Kb : forall a, kb a = true <-> untouched programs a).
  { intros a. unfold kb. rewrite Bool.negb_true_iff. split.
    - intros E s ix value (ops & H1 & H2) Ha. assert (X : existsb (Nat.eqb a) (flat_map written programs) = true); [|congruence].
      apply existsb_exists. exists a. split; [|apply Nat.eqb_refl]. apply in_flat_map. exists ops. split; [exact H1|].
      apply in_flat_map. exists (Assign s ix value). split; [exact H2|]. now left.
    - intros U. destruct (existsb _ _) eqn:E; [|reflexivity]. exfalso. apply existsb_exists in E as (b & Hb & Eb). apply Nat.eqb_eq in Eb. subst b.
      apply in_flat_map in Hb as (ops & H1 & H2). apply in_flat_map in H2 as (o & H2 & H3). destruct o as [s i|s ix value]; [destruct H3|].
      destruct H3 as [H3|[]]. apply (U s ix value); [now exists ops|exact H3]. }
  assert (Fits : Forall (Forall op_fits) programs).
  { eapply Forall_impl; [|exact F]. intros P HP. eapply Forall_impl; [|exact HP]. intros o. apply using_fits. }
  assert (Same : same_lists h kb h) by (intros a _; reflexivity).
  assert (Av : Forall (avoids kb) (map thread programs)).
  { apply Forall_forall. intros t Ht. apply in_map_iff in Ht as (ops & <- & Ho). eapply within_mono; [| |apply (stays_thread ops)]; [auto|].
    cbn [by_lists fw]. intros a _ Ha. unfold kb. apply Bool.negb_false_iff. apply existsb_exists. exists a. split; [|apply Nat.eqb_refl].
    apply in_flat_map. now exists ops. }
  set (fp := fun ops => FP (fun a p => (exists o, In o ops /\ reads_at h o a p) /\ 0 <= p \/ kb a = true)
                           (fun a p => (exists v : pyval, exists o, In o ops /\ writes_at h o a p) /\ 0 <= p /\ kb a = false)).
  assert (St : Forall2 stays (map fp programs) (map (pin h kb) (map thread programs))).
  { assert (G : forall l, (forall ops, In ops l -> In ops programs) -> Forall (Forall (using_op h)) l ->
      Forall2 stays (map fp l) (map (pin h kb) (map thread l))).
    { induction l as [|ops l IH]; intros Hl Fl; [constructor|]. inversion Fl as [|? ? Fo Fr]; subst. cbn [map]. constructor.
      - assert (Ho : forall o, In o ops -> stated programs o) by (intros o Ho; exists ops; split; [apply Hl; now left|exact Ho]).
        unfold stays, fp. cbn [fr fw].
        apply (pin_within h kb (fun a p => exists o, In o ops /\ reads_at h o a p) (fun a p _ => exists o, In o ops /\ writes_at h o a p)) with
          (Q := fun r => match r with Ok xs => reads_give (gives h (fun _ _ _ => True)) ops xs | Raise _ => True end).
        apply thread_safe.
        + eapply Forall_impl; [|exact Fo]. intros o. apply using_flow.
        + intros o s a Hin Hs Ha. apply Kb. exact (HI o s a (Ho o Hin) Hs Ha).
        + intros s ix value Hin Hk. apply Kb in Hk. exact (Hk s ix value (Ho _ Hin) eq_refl).
        + intros s ix value j a p x Hin Hj Hk _. split; [exact I|]. exists (Assign s ix value). split; [exact Hin|]. now exists j.
        + intros o a p Hin Hr. now exists o.
      - apply IH; [|exact Fr]. intros ops' Ho. apply Hl. now right. }
    now apply G. }
  assert (Ap : all_apart (sizes h) (map fp programs)).
  { intros j k f g N Ef Eg. rewrite nth_error_map in Ef, Eg.
    destruct (nth_error programs j) as [P|] eqn:Ej; [|discriminate]. destruct (nth_error programs k) as [Q|] eqn:Ek; [|discriminate].
    injection Ef as <-. injection Eg as <-. intros a p b q ((_ & o & Ho & Hw) & Np & Na) H2. cbn [fr fw fp] in *.
    destruct (Nat.eq_dec a b) as [<-|Nab]; [|now left]. right.
    assert (Nq : 0 <= q) by (destruct H2 as [[[_ X]|X]|[_ [X _]]]; [exact X|congruence|exact X]).
    unfold norm. destruct (Z.ltb_spec p 0); [lia|]. destruct (Z.ltb_spec q 0); [lia|]. intros ->.
    destruct H2 as [[[(o' & Ho' & X) _]|X]|[(_ & o' & Ho' & X) _]]; [|congruence|]; now apply (HC j k P Q N Ej Ek o o' a q Ho Ho' Hw) in X. }
  pose proof (pin_exec h kb sched h (map thread programs) Same Av) as X. rewrite H in X. cbn [fst snd] in X.
  destruct (exec_inv _ _ _ _ _ _ St Ap X) as [E1 E2].
  assert (PR : map (pin h kb) (map Ret rs) = map Ret rs) by (rewrite map_map; apply map_ext; reflexivity).
  rewrite PR, finished, (pin_in_turn h kb _ h Same Av), in_turn_threads in E1 by exact Fits. split; [exact E1|].
  rewrite PR in E2. clear - E2 Fits Av Same. clearbody kb. revert rs E2. induction Fits as [|P programs HP _ IH]; intros [|r rs] E; inversion E as [|? ? ? ? Er E']; subst; [reflexivity|].
  cbn [map] in *. inversion Av as [|? ? Av1 Av2]; subst. f_equal; [|apply IH; assumption]. cbn [run snd] in Er.
  rewrite (proj1 (pin_run h kb _ h Same Av1)), run_thread in Er by exact HP. exact Er.
Qed.
Print Assumptions C95_any_arrays.

(** The hypotheses hold for a thread that assigns through a COO array and one that
    assigns through a Strided array over the same list and reads through the COO
    array. *)
Definition until (n : Z) : pyindex := XItem (ISlice (Sl None (Some n) None)).
Definition from (n : Z) : pyindex := XItem (ISlice (Sl (Some n) None None)).
Example C95_any_case :
  let programs := [[Assign sparse_view (until 2) (SrcSeq (VSeq (map VInt [7; 8])))];
                   [Assign dense_view (from 1) (SrcSeq (VSeq (map VInt [4; 5]))); Read sparse_view [3]; Read sparse_view [5]]] in
  Forall (Forall (using_op shared_lists)) programs /\ indices_untouched programs /\ no_conflict shared_lists programs
  /\ exec [0; 0; 1; 0; 1; 0; 1; 0; 1; 0; 1; 0; 1; 1; 1; 1; 1]%nat shared_lists (map thread programs)
     = ([map VInt [7; 4; 5]; map VInt [0; 2; 5]], map Ret [Ok []; Ok [VInt 0; VInt 5]]).
Proof.
  assert (BX : forall (i : Z) n, 0 <= i < n -> in_box [i] [n]) by (intros i n Hi; constructor; [exact Hi|constructor]).
  pose proof sparse_view_valid as V1. pose proof dense_view_valid as V2.
  cbv zeta. split; [|split; [|split; [|vm_compute; reflexivity]]].
  - constructor; [constructor; [|constructor]|constructor; [|constructor]].
    + split; [exact V1|]. split; [repeat constructor; lia|]. split; [split; [constructor; [discriminate|constructor]|right; cbn; lia]|]. split; [split; [exact I|discriminate]|exact I].
    + constructor; [|constructor; [split; [exact V1|apply BX; lia]|constructor; [split; [exact V1|apply BX; lia]|constructor]]].
      split; [exact V2|]. split; [repeat constructor; lia|]. split; [split; [constructor; [discriminate|constructor]|right; cbn; lia]|]. split; exact I.
  - match goal with |- indices_untouched ?P => set (programs := P) end.
    assert (U : forall (s : storage) ix value, stated programs (Assign s ix value) -> data_addr s = 0%nat).
    { intros s ix value (ops & Hops & Ho). cbn [In] in Hops. destruct Hops as [<-|[<-|[]]]; cbn [In] in Ho;
        repeat match goal with X : _ \/ _ |- _ => destruct X end; try contradiction; try discriminate;
        match goal with X : Assign _ _ _ = Assign _ _ _ |- _ => injection X as <- _ _; reflexivity end. }
    intros o s a (ops & Hops & Ho) Hs Ha s' ix value Hs'. rewrite (U _ _ _ Hs'). cbn [In] in Hops.
    destruct Hops as [<-|[<-|[]]]; cbn [In] in Ho; repeat match goal with X : _ \/ _ |- _ => destruct X end; try contradiction; subst o;
      cbn [arrays_of In] in Hs; repeat match goal with X : _ \/ _ |- _ => destruct X end; try contradiction; subst s; cbn in Ha;
      repeat match goal with X : _ \/ _ |- _ => destruct X end; try contradiction; subst a; discriminate.
  - (* where the elements are *)
    assert (B1 : forall j, in_box j (slice_shape (until 2) [6]) -> exists x, j = [x] /\ 0 <= x < 2 /\ source_index (until 2) [6] j = [x]).
    { intros j Hj. match type of Hj with in_box _ ?sh => change sh with [2] in Hj end. apply box1 in Hj as (x & -> & Hx). exists x. split; [reflexivity|].
      split; [exact Hx|]. assert (x = 0 \/ x = 1) as [-> | ->] by lia; reflexivity. }
    assert (B2 : forall j, in_box j (slice_shape (from 1) [3]) -> exists x, j = [x] /\ 0 <= x < 2 /\ source_index (from 1) [3] j = [x + 1]).
    { intros j Hj. match type of Hj with in_box _ ?sh => change sh with [2] in Hj end. apply box1 in Hj as (x & -> & Hx). exists x. split; [reflexivity|].
      split; [exact Hx|]. assert (x = 0 \/ x = 1) as [-> | ->] by lia; reflexivity. }
    assert (K2 : forall x a p, kept shared_lists dense_view [x] a p -> a = 0%nat /\ p = x).
    { intros x a p Hk. inversion Hk; subst; [|cbn in *; contradiction]. split; [reflexivity|]. unfold spos. cbn -[Z.mul Z.add]. lia. }
    assert (K1 : forall x a p, 0 <= x < 6 -> kept shared_lists sparse_view [x] a p -> a = 0%nat /\ (x = 0 /\ p = 0 \/ x = 2 /\ p = 1 \/ x = 5 /\ p = 2)).
    { intros x a p Hx Hk. assert (Hg : get_elem shared_lists sparse_view [x] = hget shared_lists a p) by (apply get_kept; auto; apply BX; lia).
      remember sparse_view as s eqn:Es. remember [x] as i eqn:Ei. destruct Hk as [| |s d E i k HE Ed Hk Hi|]; try discriminate. subst s i.
      injection Ed as <-. split; [reflexivity|].
      pose proof (entries_data shared_lists sparse_view E HE) as (d & Ed & (l & El & _ & Hz & _) & _). injection Ed as <-. rewrite zlen_map in Hz. cbn in Hz.
      assert (k = 0 \/ k = 1 \/ k = 2) as Hk3 by lia.
      pose proof (flat_data_position_ok shared_lists sparse_view E [x] HE (BX x 6 Hx)) as X.
      rewrite <- Hi, epos_at in X by (unfold zlen in *; first [lia | eapply BuildFacts.ordered_NoDup, entries_ordered; eassumption]).
      rewrite Hi in X. cbn [zpos option_map] in X.
      assert (Hx6 : x = 0 \/ x = 1 \/ x = 2 \/ x = 3 \/ x = 4 \/ x = 5) by lia.
      cbn [boff]. destruct Hx6 as [->|[->|[->|[->|[->| ->]]]]]; vm_compute in X; try discriminate; injection X as X; destruct Hk3 as [->|[->| ->]]; vm_compute in X; try discriminate; lia. }
    intros j k P Q N EP EQ o o' a p Ho Ho' Hw.
    destruct j as [|[|j]]; [| |destruct j; discriminate]; (destruct k as [|[|k]]; [| |destruct k; discriminate]); try congruence;
      injection EP as <-; injection EQ as <-; cbn [In] in Ho, Ho';
      repeat match goal with X : _ \/ _ |- _ => destruct X end; try contradiction; subst o o'; cbn [writes_at reads_at shape_of sparse_view dense_view] in *.
    all: try contradiction.
    all: fold sparse_view dense_view in *.
    all: try (destruct Hw as (jj & Hj & Hw)).
    all: split; try (intros []; fail); intros Hr.
    all: try (destruct Hr as (j2 & Hj2 & Hr)).
    all: cbn [sshape] in *.
    all: try (apply B1 in Hj as (x & -> & Hx & Es); rewrite Es in Hw; apply K1 in Hw; [|lia]).
    all: try (apply B2 in Hj as (x & -> & Hx & Es); rewrite Es in Hw; apply K2 in Hw).
    all: try (apply B1 in Hj2 as (y & -> & Hy & Es2); rewrite Es2 in Hr; apply K1 in Hr; [|lia]).
    all: try (apply B2 in Hj2 as (y & -> & Hy & Es2); rewrite Es2 in Hr; apply K2 in Hr).
    all: try (apply K1 in Hr; [|lia]).
    all: try lia.
Qed.

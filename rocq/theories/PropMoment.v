(** C115: loops over elements() and equal() while other threads run. *)
From Verif Require Import Py SliceTools Basics Storage Spec SliceFacts IndexFacts CompressFacts ReduceFacts SolverFacts
  SolveFacts Repr ReprFacts ViewFacts BuildFacts SparseFacts ConvFacts FromFacts MapFacts DMFacts ReadFacts WriteFacts RefineFacts EqFacts
  AliasFacts PropRead PropWrite PropLoop Threads ThreadFacts PropThreads PropRaces PropFlow Copies PropCopies PropSnap Iterate.
From Coq Require Import List.
Import ListNotations.

(** The lists after the first [n] turns. *)
Definition moment {A} (sched : list nat) (h : heap) (ts : list (prog A)) (n : nat) : heap :=
  fst (exec (firstn n sched) h ts).

(** The moments [ms] are in order, from [n] on and not after [n']. *)
Fixpoint in_order (n : nat) (ms : list nat) (n' : nat) : Prop :=
  match ms with
  | [] => (n <= n')%nat
  | m :: r => (n <= m)%nat /\ in_order m r n'
  end.

(** No thread puts anything into the lists [l]. *)
Definition leaves {A} (l : list nat) (t : prog A) : Prop := within (fun _ _ => True) (fun a _ => ~ In a l) t.

(** The thread computes [m] and ends with [give] of the result. *)
Definition ends_with {A B} (m : prog A) (give : A -> B) : prog B := x <~ m ;; Ret (Ok (give x)).

Lemma in_order_le : forall ms n n', in_order n ms n' -> (n <= n')%nat.
Proof. induction ms as [|m ms IH]; intros n n'; cbn [in_order]; [auto|]. intros [H1 H2]. apply IH in H2. lia. Qed.
Lemma in_order_from : forall ms k n n', (k <= n)%nat -> in_order n ms n' -> in_order k ms n'.
Proof. intros [|m ms] k n n'; cbn [in_order]; [lia|]. intros H1 [H2 H3]. split; [lia|exact H3]. Qed.
Lemma in_order_to : forall ms n n' k, (n' <= k)%nat -> in_order n ms n' -> in_order n ms k.
Proof. induction ms as [|m ms IH]; intros n n' k; cbn [in_order]; [lia|]. intros H1 [H2 H3]. split; [exact H2|]. now apply IH with n'. Qed.
Lemma in_order_app : forall ms ms' n k n', in_order n ms k -> in_order k ms' n' -> in_order n (ms ++ ms') n'.
Proof.
  induction ms as [|m ms IH]; intros ms' n k n'; cbn [in_order app]; [apply in_order_from|]. intros [H1 H2] H3. split; [exact H1|]. now apply IH with k.
Qed.
Lemma in_order_in : forall ms n n' m, in_order n ms n' -> In m ms -> (n <= m <= n')%nat.
Proof.
  induction ms as [|x ms IH]; intros n n' m; cbn [in_order In]; [tauto|]. intros [H1 H2] [<-|Hm]; [apply in_order_le in H2; lia|].
  destruct (IH _ _ _ H2 Hm). lia.
Qed.

(** * Programs that only read, in the course of time *)
Section Timed.
Variable H : nat -> heap.
Variable N : nat.

Fixpoint timely {A} (n : nat) (Q : nat -> res A -> Prop) (m : prog A) {struct m} : Prop :=
  match m with
  | Ret r => Q n r
  | Get a p k => forall n', (n <= n' <= N)%nat ->
      match hget (H n') a p with Ok v => timely n' Q (k v) | Raise e => Q n' (Raise e) end
  | Put _ _ _ _ => False
  end.
Definition lasting {A} (Q : nat -> res A -> Prop) : Prop := forall n n' r, (n <= n' <= N)%nat -> Q n r -> Q n' r.

Lemma timely_later {A} (Q : nat -> res A -> Prop) m : lasting Q -> forall n n', (n <= n' <= N)%nat -> timely n Q m -> timely n' Q m.
Proof.
  intros L. destruct m as [r|a p k|a p v k]; intros n n' Hn; cbn [timely]; [now apply L| |auto].
  intros Hm k' Hk. apply Hm. lia.
Qed.
Lemma timely_bind {A B} (Q1 : nat -> res A -> Prop) (Q : nat -> res B -> Prop) (f : A -> prog B) : forall m n, (n <= N)%nat ->
  timely n Q1 m -> (forall n' x, (n <= n' <= N)%nat -> Q1 n' (Ok x) -> timely n' Q (f x)) ->
  (forall n' e, (n <= n' <= N)%nat -> Q1 n' (Raise e) -> Q n' (Raise e)) -> timely n Q (pbind m f).
Proof.
  induction m as [[x|e]|a p k IH|a p v k IH]; intros n Hn Hm Hf He; cbn [timely pbind] in *.
  - apply Hf; [lia|exact Hm].
  - apply He; [lia|exact Hm].
  - intros n' Hn'. specialize (Hm n' Hn'). destruct (hget (H n') a p) as [v|e]; [|now apply He].
    apply IH; [lia|exact Hm| |]; intros n2 y Hn2; [apply Hf|apply He]; lia.
  - contradiction.
Qed.
Lemma timely_weaken {A} (Q Q' : nat -> res A -> Prop) : forall m n, (n <= N)%nat -> timely n Q m ->
  (forall n' r, (n <= n' <= N)%nat -> Q n' r -> Q' n' r) -> timely n Q' m.
Proof.
  induction m as [r|a p k IH|a p v k IH]; intros n Hn Hm HQ; cbn [timely] in *; [apply HQ; [lia|exact Hm]| |auto].
  intros n' Hn'. specialize (Hm n' Hn'). destruct (hget (H n') a p) as [v|e]; [|now apply HQ].
  apply IH; [lia|exact Hm|]. intros n2 r Hn2. apply HQ. lia.
Qed.

Variable h : heap.
Variable K : nat -> Prop.
Hypothesis still : forall n a, (n <= N)%nat -> K a -> nth_error (H n) a = nth_error h a.
Lemma still_get n a p : (n <= N)%nat -> K a -> hget (H n) a p = hget h a p.
Proof. intros Hn Ha. unfold hget, cell. now rewrite (still n a Hn Ha). Qed.
Lemma timely_still {A B} (m : prog A) (f : A -> prog B) Q : within (fun a _ => K a) (fun _ _ => False) m ->
  forall x n, (n <= N)%nat -> snd (run m h) = Ok x -> (forall n', (n <= n' <= N)%nat -> timely n' Q (f x)) -> timely n Q (pbind m f).
Proof.
  induction m as [r|a p k IH|a p v k IH]; intros Hw x n Hn E Hf; cbn [within run timely pbind] in *.
  - cbn [snd] in E. subst r. apply Hf. lia.
  - destruct Hw as [W1 W2]. intros n' Hn'. rewrite (still_get n' a p) by (tauto || lia).
    destruct (hget h a p) as [v|] eqn:Ev; [|discriminate]. apply (IH v (W2 v) x); [lia|exact E|]. intros n2 Hn2. apply Hf. lia.
  - destruct Hw as [[] _].
Qed.
End Timed.

(** A thread that only reads, while the others do what they like. *)
Lemma exec_timely {A} (Q : nat -> res A -> Prop) H N j : lasting N Q -> forall sched h (ts : list (prog A)) n m r,
  (n + length sched = N)%nat -> (forall k, (k <= length sched)%nat -> H (n + k)%nat = moment sched h ts k) ->
  nth_error ts j = Some m -> timely H N n Q m -> nth_error (snd (exec sched h ts)) j = Some (Ret r) -> Q N r.
Proof.
  intros L. induction sched as [|i sched IH]; intros h ts n m r HN HH Ej Hm Er; cbn [exec length] in *.
  - cbn [snd] in Er. rewrite Ej in Er. injection Er as ->. cbn [timely] in Hm. replace N with n by lia. exact Hm.
  - assert (E0 : H n = h) by (specialize (HH 0%nat ltac:(lia)); now rewrite Nat.add_0_r in HH).
    destruct (nth_error ts i) as [t|] eqn:Ei.
    + destruct (advance h t) as [h1 t1] eqn:Ea. assert (Hlen : (j < length ts)%nat) by (apply nth_error_Some; congruence).
      assert (G : exists m1, nth_error (set_nth i t1 ts) j = Some m1 /\ timely H N (S n) Q m1).
      { destruct (Nat.eq_dec i j) as [->|Nij].
        - rewrite Ej in Ei. injection Ei as <-. exists t1. split; [now apply set_nth_error_same|].
          apply (timely_later H N Q t1 L n); [lia|]. destruct m as [r1|a p k|a p v k]; cbn [advance timely] in *; [now injection Ea as _ <-| |contradiction].
          specialize (Hm n ltac:(lia)). rewrite E0 in Hm. destruct (hget h a p); injection Ea as _ <-; exact Hm.
        - exists m. split; [rewrite set_nth_error_other by auto; exact Ej|]. now apply (timely_later H N Q m L n); [lia|]. }
      destruct G as (m1 & E1 & T1). refine (IH h1 (set_nth i t1 ts) (S n) m1 r _ _ E1 T1 Er); [lia|].
      intros k Hk. replace (S n + k)%nat with (n + S k)%nat by lia. rewrite (HH (S k)) by lia. unfold moment. cbn [firstn exec]. now rewrite Ei, Ea.
    + refine (IH h ts (S n) m r _ _ Ej _ Er); [lia| |].
      * intros k Hk. replace (S n + k)%nat with (n + S k)%nat by lia. rewrite (HH (S k)) by lia. unfold moment. cbn [firstn exec]. now rewrite Ei.
      * apply (timely_later H N Q m L n); [lia|exact Hm].
Qed.

(** What [leaves] means for the lists. *)
Lemma exec_leaves {A} l : forall sched h (ts : list (prog A)) h' ts', Forall (leaves l) ts -> exec sched h ts = (h', ts') ->
  (forall a, In a l -> nth_error h' a = nth_error h a) /\ (forall a, sizes h' a = sizes h a /\ (nth_error h a = None <-> nth_error h' a = None)).
Proof.
  induction sched as [|j sched IH]; intros h ts h' ts' F E; cbn [exec] in E.
  - injection E as <- <-. split; [reflexivity|]. intros a. split; [reflexivity|tauto].
  - destruct (nth_error ts j) as [t|] eqn:Ej; [|now apply IH in E].
    destruct (advance h t) as [h1 t1] eqn:Ea. assert (Ht : leaves l t) by (rewrite Forall_forall in F; apply F; now apply nth_error_In in Ej).
    assert (G : leaves l t1 /\ (forall a, In a l -> nth_error h1 a = nth_error h a) /\ (forall a, sizes h1 a = sizes h a /\ (nth_error h a = None <-> nth_error h1 a = None))).
    { unfold leaves in *. destruct t as [r|a p k|a p v k]; cbn [advance within] in *.
      - injection Ea as <- <-. split; [exact I|]. split; [reflexivity|]. intros a. split; [reflexivity|tauto].
      - destruct (hget h a p); injection Ea as <- <-; (split; [try exact I; apply Ht|]); (split; [reflexivity|]); intros b; (split; [reflexivity|tauto]).
      - destruct (hput h a p v) as [h2|] eqn:Ep; injection Ea as <- <-.
        + split; [apply Ht|]. destruct (hput_ok _ _ _ _ _ Ep) as (x & _ & _ & Eh). split.
          * intros b Hb. subst h2. apply set_nth_error_other. intros ->. now apply (proj1 Ht).
          * intros b. split; [exact (hput_sizes _ _ _ _ _ Ep b)|exact (hput_same _ _ _ _ _ Ep b)].
        + split; [exact I|]. split; [reflexivity|]. intros b. split; [reflexivity|tauto]. }
    destruct G as (G1 & G2 & G3). destruct (IH h1 (set_nth j t1 ts) h' ts') as [X1 X2]; [|exact E|].
    + apply Forall_forall. intros x Hx. apply in_set_nth in Hx as [->|(k & _ & Hk)]; [exact G1|]. rewrite Forall_forall in F. apply F. now apply nth_error_In in Hk.
    + split; [intros a Ha; now rewrite X1, G2|]. intros a. destruct (X2 a), (G3 a). split; [congruence|tauto].
Qed.
Lemma moment_keeps {A} s sched h (ts : list (prog A)) n : Forall (leaves (index_addrs s)) ts -> keeps s h (moment sched h ts n).
Proof.
  intros F. unfold moment. destruct (exec (firstn n sched) h ts) as [h' ts'] eqn:E. cbn [fst].
  destruct (exec_leaves _ _ _ _ _ _ F E) as [X1 X2]. split; [exact X1|]. intros l Hl.
  destruct (X2 (data_addr s)) as [S1 S2]. destruct (nth_error h' (data_addr s)) as [l'|] eqn:E'.
  - exists l'. split; [reflexivity|]. unfold sizes in S1. rewrite Hl, E' in S1. unfold zlen in S1. lia.
  - destruct S2 as [_ S2]. rewrite (S2 eq_refl) in Hl. discriminate.
Qed.

(** * Reading elements in the course of time *)
Section Elements.
Variable H : nat -> heap.
Variable N : nat.
Variable h : heap.

Definition times (s : storage) : Prop := forall n, (n <= N)%nat -> keeps s h (H n).

Lemma times_index s : times s -> forall n a, (n <= N)%nat -> In a (index_addrs s) -> nth_error (H n) a = nth_error h a.
Proof. intros T n a Hn Ha. destruct (T n Hn) as [X _]. now apply X. Qed.

Definition read_at (s : storage) (i : list Z) (n : nat) (n' : nat) (r : res pyval) : Prop :=
  exists m v, (n <= m <= n')%nat /\ r = Ok v /\ get_elem (H m) s i = Ok v.

Lemma data_get n a p b : p = boff b + a -> hget (H n) (baddr b) p = buf_get (H n) b a.
Proof. intros ->. reflexivity. Qed.

Lemma sparse_timely s E i : entries h s E -> in_box i (shape_of s) -> times s -> forall n, (n <= N)%nat ->
  timely H N n (fun n' r => exists m v, (n <= m <= n')%nat /\ r = Ok v /\ current (H m) s (KTup i) = Ok v) (flat_get_elem_t s i).
Proof.
  intros HE Hi HT n Hn. unfold flat_get_elem_t.
  apply (timely_still H N h (fun a => In a (index_addrs s)) (times_index s HT) (flat_data_position_t s i)) with (x := zpos (epos E i)).
  - apply w_position. auto.
  - exact Hn.
  - rewrite reads_position; [cbn [snd]; now apply flat_data_position_ok|]. apply (C94_arrays_fit h).
    + exists (lookup E (unspecified_of s)). destruct s; cbn in HE; try contradiction; (exists E; split; [exact HE|reflexivity]).
    + destruct s; auto. contradiction.
  - intros n' Hn'. destruct (entries_data h s E HE) as (d & Ed & _). destruct (epos E i) as [k|] eqn:Ek; cbn [zpos option_map].
    + rewrite Ed. cbn [pbind buf_get_t timely]. apply epos_some in Ek as [Hk Ei]. intros n2 Hn2.
      destruct (entries_keeps h (H n2) s E HE (HT n2 ltac:(lia))) as (E2 & HE2 & F2).
      destruct (entries_data _ s E2 HE2) as (d2 & Ed2 & Hh & _). rewrite Ed in Ed2. injection Ed2 as <-.
      assert (L2 : length E2 = length E) by (rewrite <- (map_length fst E2), F2; apply map_length).
      rewrite (data_get n2 (Z.of_nat k) _ d eq_refl). rewrite (buf_get_ok _ _ _ _ Hh) by (rewrite zlen_map; unfold zlen in *; lia).
      exists n2. eexists. split; [lia|]. split; [reflexivity|]. rewrite Nat2Z.id.
      set (e := nth k E2 ([], VNone)). assert (Fe : fst e = i) by (unfold e; rewrite <- (map_nth fst E2), F2, (map_nth fst E); exact Ei).
      rewrite <- Fe. rewrite (current_entry (H n2) s E2 e HE2) by (apply nth_In; lia). unfold e. rewrite <- (map_nth snd E2). reflexivity.
    + cbn [timely]. destruct (entries_keeps h (H n') s E HE (HT n' ltac:(lia))) as (E2 & HE2 & F2).
      exists n', (unspecified_of s). split; [lia|]. split; [reflexivity|].
      rewrite (current_tuple _ _ _ _ (repr_entries _ _ _ HE2) Hi). f_equal. apply lookup_absent. rewrite F2. now apply epos_none.
Qed.

Lemma read_timely : forall s i, valid h s -> in_box i (shape_of s) -> times s -> forall n, (n <= N)%nat ->
  timely H N n (read_at s i n) (get_elem_t s i).
Proof.
  assert (SP : forall s E i, entries h s E -> in_box i (shape_of s) -> times s -> forall n, (n <= N)%nat ->
    timely H N n (read_at s i n) (flat_get_elem_t s i)).
  { intros s E i HE Hi HT n Hn. eapply timely_weaken; [exact Hn|exact (sparse_timely s E i HE Hi HT n Hn)|].
    intros n' r _ (m & v & H1 & H2 & H3). exists m, v. auto. }
  induction s as [b|t|sh ind d|sh fi d|sh cr co d|sh ch a b c d|sh rd rsh rs ro d IH]; intros i V Hi HT n Hn.
  - cbn [shape_of] in Hi. apply box1 in Hi as (x & -> & Hx). cbn [get_elem_t buf_get_t timely]. intros n' Hn'.
    destruct (valid_keeps _ _ _ V (HT n' ltac:(lia))) as (f & Hf). rewrite (data_get n' x _ b eq_refl).
    destruct Hf as (vs & Hh & _). pose proof Hh as (l & _ & _ & Hs & _). rewrite (buf_get_ok _ _ _ _ Hh) by lia. cbn [timely].
    exists n'. eexists. split; [lia|]. split; [reflexivity|].
    unfold get_elem. cbn [getitem]. unfold buffer_getitem, int_tuple. cbn [map buf_complete_index bind].
    rewrite (buf_get_ok _ _ _ _ Hh) by lia. reflexivity.
  - cbn [get_elem_t shape_of] in *. unfold strided_elem_t. pose proof V as (f0 & l0 & _ & S0 & _).
    destruct (normal_element i _ Hi) as (-> & E2 & E3). cbn [pbind]. rewrite E2, E3.
    rewrite get_position_ok by (apply (Forall2_len _ _ _ Hi) || apply (so_strides _ _ S0)). cbn [pbind buf_get_t timely].
    fold (spos t i). intros n' Hn'. destruct (valid_keeps _ _ _ V (HT n' ltac:(lia))) as (f & Hf). pose proof (repr_get _ _ _ _ Hf Hi) as Ef.
    assert (X : hget (H n') (baddr (sdata t)) (spos t i) = Ok (f i)).
    { destruct Hf as (l & Hl & S & F). unfold hget. rewrite (cell_ok _ _ _ Hl). cbn [bind].
      pose proof (so_pos _ _ S i Hi). pose proof (so_end _ _ S). rewrite (pyget_ok _ _ VNone) by lia. now rewrite F. }
    unfold spos in *. rewrite X. cbn [timely]. exists n', (f i). split; [lia|]. split; [reflexivity|exact Ef].
  - destruct V as (f & E & HE & _). cbn [get_elem_t shape_of] in *. destruct (normal_element i _ Hi) as (E1 & E2 & E3). rewrite E1. cbn [pbind]. rewrite E2, E3.
    now apply (SP _ E).
  - destruct V as (f & E & HE & _). cbn [get_elem_t shape_of] in *. destruct (normal_element i _ Hi) as (E1 & E2 & E3). rewrite E1. cbn [pbind]. rewrite E2, E3.
    now apply (SP _ E).
  - destruct V as (f & E & HE & _). cbn [get_elem_t shape_of] in *. destruct (normal_element i _ Hi) as (E1 & E2 & E3). rewrite E1. cbn [pbind]. rewrite E2, E3.
    now apply (SP _ E).
  - destruct V as (f & E & HE & _). contradiction.
  - pose proof V as (f & g & Hg & Hd & _). cbn [get_elem_t shape_of index_addrs] in *.
    destruct (normal_element i _ Hi) as (E1 & E2 & E3). rewrite E1. cbn [pbind]. rewrite E2, E3. pose proof (dm_rshapes _ _ _ _ _ _ Hd) as Er. subst rsh.
    rewrite reduce_index_dm; [|apply (dm_rstrides _ _ _ _ _ _ Hd)| |apply (dm_roffset _ _ _ _ _ _ Hd)].
    2:{ rewrite (in_box_zlen _ _ Hi). apply perm_axes, (dm_perm _ _ _ _ _ _ Hd). }
    cbn [pbind]. pose proof (dm_box _ _ _ _ _ _ Hd i Hi) as Hb.
    eapply timely_weaken; [exact Hn|exact (IH (dm_index rd rs ro i) (ex_intro _ g Hg) Hb HT n Hn)|].
    intros n' r Hn' (m & v & H1 & H2 & H3). exists m, v. split; [exact H1|]. split; [exact H2|].
    destruct (valid_keeps _ _ _ V (HT m ltac:(lia))) as (f' & Hf'). rewrite (repr_get _ _ _ _ Hf' Hi).
    destruct Hf' as (g' & Hg' & _ & F'). rewrite (F' i Hi). rewrite (repr_get _ _ _ _ Hg' Hb) in H3. now f_equal; injection H3.
Qed.

(** The pairs the loop is given: the keys [keys], each with the value the element
    has at some moment; the moments are in order. *)
Definition seen (s : storage) (keys : list key) (n n' : nat) (r : res (list (key * pyval))) : Prop :=
  exists l ms, r = Ok l /\ map fst l = keys /\ in_order n ms n'
    /\ Forall2 (fun m p => current (H m) s (fst p) = Ok (snd p)) ms l.

Definition item_at (s : storage) (k : key) (n n' : nat) (r : res (key * pyval)) : Prop :=
  exists m v, (n <= m <= n')%nat /\ r = Ok (k, v) /\ current (H m) s k = Ok v.

Lemma mapM_seen {X} s (f : X -> prog (key * pyval)) : forall l keys n, (n <= N)%nat ->
  Forall2 (fun x k => forall n, (n <= N)%nat -> timely H N n (item_at s k n) (f x)) l keys ->
  timely H N n (seen s keys n) (mapM_t f l).
Proof.
  induction l as [|x l IH]; intros keys n Hn F; inversion F as [|? k ? keys' F1 F2]; subst; cbn [mapM_t timely].
  - exists [], []. repeat split; try constructor. 
  - eapply timely_bind; [exact Hn|exact (F1 n Hn)| |].
    + intros n1 [k1 v1] Hn1 (m & v & Hm & E & Ec). injection E as -> ->.
      eapply timely_bind; [|exact (IH keys' n1 ltac:(lia) F2)| |]; [lia| |].
      * intros n2 l2 Hn2 (l' & ms & E & Ek & Ho & Hf). injection E as ->. cbn [timely]. exists ((k, v) :: l'), (m :: ms).
        split; [reflexivity|]. split; [cbn; now rewrite Ek|]. split; [cbn [in_order]; split; [lia|]; apply in_order_from with n1; [lia|exact Ho]|].
        constructor; [exact Ec|exact Hf].
      * intros n2 e Hn2 (l' & ms & E & _). discriminate.
    + intros n1 e Hn1 (m & v & _ & E & _). discriminate.
Qed.

Lemma item_timely s E d j p : entries h s E -> data_buffer s = Ok d -> times s -> In (j, p) (numbered E) -> forall n, (n <= N)%nat ->
  timely H N n (item_at s (KTup j) n) (item_t d j p).
Proof.
  intros HE Ed HT Hin n Hn. cbn [item_t buf_get_t pbind timely]. intros n2 Hn2. apply In_numbered in Hin as [Hr Hj].
  destruct (entries_keeps h (H n2) s E HE (HT n2 ltac:(lia))) as (E2 & HE2 & F2).
  destruct (entries_data _ s E2 HE2) as (d2 & Ed2 & Hh & _). rewrite Ed in Ed2. injection Ed2 as <-.
  assert (L2 : length E2 = length E) by (rewrite <- (map_length fst E2), F2; apply map_length).
  rewrite (data_get n2 p _ d eq_refl). rewrite (buf_get_ok _ _ _ _ Hh) by (rewrite zlen_map; unfold zlen in *; lia). cbn [timely].
  exists n2. eexists. split; [lia|]. split; [reflexivity|].
  set (e := nth (Z.to_nat p) E2 ([], VNone)).
  assert (Fe : fst e = j) by (unfold e; rewrite Hj, <- (map_nth fst E2), F2, (map_nth fst E); reflexivity).
  rewrite <- Fe. rewrite (current_entry (H n2) s E2 e HE2) by (apply nth_In; unfold zlen in *; lia). unfold e. now rewrite nth_map_snd.
Qed.

Lemma mapM_pairs {X Y} (g : X -> res Y) : forall l L, mapM g l = Ok L -> Forall2 (fun x y => g x = Ok y) l L.
Proof.
  induction l as [|x l IH]; intros L E; cbn [mapM] in E; [injection E as <-; constructor|].
  apply bind_ok in E as (y & Ey & E). apply bind_ok in E as (ys & Eys & E). injection E as <-. constructor; [exact Ey|now apply IH].
Qed.
Lemma Forall2_right {X Y Y'} (P : X -> Y -> Prop) (Q : X -> Y' -> Prop) (f : Y -> Y') : forall l L, Forall2 P l L ->
  (forall x y, In y L -> P x y -> Q x (f y)) -> Forall2 Q l (map f L).
Proof.
  induction 1 as [|x y l L HP F IH]; intros HQ; cbn [map]; constructor; [apply HQ; [now left|exact HP]|].
  apply IH. intros x' y' Hin. apply HQ. now right.
Qed.

Lemma sparse_elements s E : entries h s E -> positive (shape_of s) -> times s -> forall n, (n <= N)%nat ->
  timely H N n (seen s (map (fun e => KTup (fst e)) E) n) (elements_t s).
Proof.
  intros HE Hp HT n Hn. pose proof (sparse_iad_ok h s E HE Hp) as EL. destruct (entries_data h s E HE) as (d0 & Ed & _).
  pose proof (fun j p Hin => item_timely s E d0 j p HE Ed HT Hin) as IT.
  replace (map (fun e : list Z * pyval => KTup (fst e)) E) with (map (fun p : list Z * Z => KTup (fst p)) (numbered E))
    by (rewrite <- (map_map fst KTup (numbered E)), numbered_fst, map_map; reflexivity).
  assert (Still : forall A B (m : prog A) (f : A -> prog B) Q, within (fun a _ => In a (index_addrs s)) (fun _ _ => False) m ->
    forall x n, (n <= N)%nat -> snd (run m h) = Ok x -> (forall n', (n <= n' <= N)%nat -> timely H N n' Q (f x)) -> timely H N n Q (pbind m f))
    by (intros A B; exact (timely_still H N h (fun a => In a (index_addrs s)) (times_index s HT))).
  assert (Up : forall k n1 n2 m, (n1 <= n2 <= N)%nat -> timely H N n2 (item_at s k n2) m -> timely H N n2 (item_at s k n1) m).
  { intros k n1 n2 m Hn2 Hm. eapply timely_weaken; [lia|exact Hm|]. intros n3 r _ (m' & v & X1 & X2). exists m', v. split; [lia|exact X2]. }
  destruct s as [b|t|sh ind d|sh fi d|sh cr co d|sh ch a b c d|sh rd rsh rs ro d]; try contradiction; cbn [sparse_iad elements_t index_addrs data_buffer] in *;
    injection Ed as <-.
  - unfold coo_iad in EL. apply bind_ok in EL as (k & -> & EL). apply bind_ok in EL as (rows & E0 & EL). cbn [pbind].
    apply mapM_seen; [exact Hn|]. eapply Forall2_right; [exact (mapM_pairs _ _ _ EL)|].
    intros pos [ix p] Hin Ex n1 Hn1. cbn [fst]. rewrite E0. cbn [pbind]. apply bind_ok in Ex as (ix' & Ei & Ex). injection Ex as -> ->.
    apply Still with (x := ix); [| exact Hn1 | |].
    + generalize (zseq rows). intros js. induction js as [|j js IHj]; cbn [mapM_t]; [exact I|].
      apply within_bind; [apply w_strided_int; intros q; now left|]. intros y. apply within_bind; [exact IHj|]. intros ys. exact I.
    + rewrite (reads_mapM _ (fun h j => strided_int h ind (int_tuple [j; p]))); [exact Ei|].
      intros j. apply reads_strided_int. destruct HE as (_ & _ & _ & _ & -> & _). reflexivity.
    + intros n2 Hn2. apply Up; [exact Hn2|]. apply IT; [exact Hin|lia].
  - unfold flatcoo_iad in EL. apply bind_ok in EL as (sd & -> & EL). cbn [pbind].
    apply mapM_seen; [exact Hn|]. eapply Forall2_right; [exact (mapM_pairs _ _ _ EL)|].
    intros pos [ix p] Hin Ex n1 Hn1. cbn [fst]. apply bind_ok in Ex as (f & Ef & Ex). apply bind_ok in Ex as (i & Ei & Ex).
    destruct i as [ix'|]; [|discriminate]. injection Ex as -> ->.
    apply Still with (x := f); [apply w_buf_int; intros q; now left|exact Hn1|now rewrite reads_buf_int|].
    intros n2 Hn2. rewrite Ei. cbn [pbind]. apply Up; [exact Hn2|]. apply IT; [exact Hin|lia].
  - unfold csr_iad in EL. apply bind_ok in EL as (k & -> & EL). cbn [pbind].
    assert (G : forall rows L n, (n <= N)%nat -> csr_iad_rows h cr co rows = Ok L -> (forall x, In x L -> In x (numbered E)) ->
      timely H N n (seen (SCSR sh cr co d) (map (fun p : list Z * Z => KTup (fst p)) L) n) (csr_elements_t cr co d rows)).
    { clear n Hn EL. induction rows as [|r rows IHr]; intros L n Hn EL Sub; cbn [csr_iad_rows csr_elements_t] in *.
      { injection EL as <-. cbn [timely map]. exists [], []. repeat split; constructor. }
      apply bind_ok in EL as (x & Ex & EL). apply bind_ok in EL as (y & Ey & EL). apply bind_ok in EL as (l & El & EL). apply bind_ok in EL as (rest & Er & EL).
      injection EL as <-.
      apply Still with (x := x); [apply w_buf_int; intros q; now left|exact Hn|now rewrite reads_buf_int|]. intros n1 Hn1.
      apply Still with (x := y); [apply w_buf_int; intros q; now left|lia|now rewrite reads_buf_int|]. intros n2 Hn2.
      eapply timely_bind with (Q1 := seen (SCSR sh cr co d) (map (fun p : list Z * Z => KTup (fst p)) l) n2); [lia| | |].
      - apply mapM_seen; [lia|]. eapply Forall2_right; [exact (mapM_pairs _ _ _ El)|].
        intros pos [ix p] Hin Ez n3 Hn3. cbn [fst]. apply bind_ok in Ez as (c & Ec & Ez). injection Ez as <- <-.
        apply Still with (x := c); [apply w_buf_int; intros q; right; now left|exact Hn3|now rewrite reads_buf_int|].
        intros n4 Hn4. apply Up; [exact Hn4|]. apply IT; [apply Sub, in_or_app; now left|lia].
      - intros n3 l1 Hn3 (l' & ms & X1 & X2 & X3 & X4). injection X1 as ->.
        eapply timely_bind; [|apply (IHr rest n3)| |]; [lia|lia|exact Er|intros z Hz; apply Sub, in_or_app; now right| |].
        + intros n4 l2 Hn4 (l'' & ms' & Y1 & Y2 & Y3 & Y4). injection Y1 as ->. cbn [timely]. exists (l' ++ l''), (ms ++ ms').
          split; [reflexivity|]. split; [now rewrite !map_app, X2, Y2|].
          split; [apply in_order_from with n2; [lia|]; now apply in_order_app with n3|now apply Forall2_app].
        + intros n4 e _ (l'' & ms' & Y1 & _). discriminate.
      - intros n3 e _ (l'' & ms' & Y1 & _). discriminate. }
    apply (G _ _ n Hn EL). auto.
Qed.

Theorem elements_timely s : valid h s -> (is_sparse s -> positive (shape_of s)) -> times s -> forall l n, elements h s = Ok l -> (n <= N)%nat ->
  timely H N n (seen s (map fst l) n) (elements_t s).
Proof.
  intros V Hp HT l n El Hn. pose proof V as (f & Hr).
  assert (SP : forall E, entries h s E -> is_sparse s -> timely H N n (seen s (map fst l) n) (elements_t s)).
  { intros E HE Hsp. rewrite (elements_sparse h s E HE (Hp Hsp)) in El. injection El as <-. rewrite map_map. cbn [fst]. apply sparse_elements; auto. }
  destruct s as [b|t|sh ind d|sh fi d|sh cr co d|sh ch a b c d|sh rd rsh rs ro d].
  - rewrite (elements_buffer h b f Hr) in El. injection El as <-. rewrite map_map. cbn [fst elements_t].
    apply mapM_seen; [exact Hn|].
    replace (zrange (boff b) (boff b + bsize b)) with (map (fun x => boff b + x) (zseq (bsize b))).
    2:{ unfold zrange. replace (boff b + bsize b - boff b) with (bsize b) by lia. unfold zseq. now rewrite map_map. }
    assert (G : forall x, In x (zseq (bsize b)) -> 0 <= x < bsize b) by (intros x Hx; now apply In_zseq).
    clear SP. revert G. induction (zseq (bsize b)) as [|x xs IH]; intros G; cbn [map]; [constructor|]. constructor; [|apply IH; intros y Hy; apply G; now right].
    intros n1 Hn1. cbn [timely]. intros n2 Hn2. specialize (G x (or_introl eq_refl)).
    destruct (valid_keeps _ _ _ V (HT n2 ltac:(lia))) as (g & Hg). pose proof (current_buffer _ _ _ _ Hg G) as Ec.
    rewrite (data_get n2 x _ b eq_refl). destruct Hg as (vs & Hh & Fg). pose proof Hh as (l' & _ & _ & Hs & _).
    rewrite (buf_get_ok _ _ _ _ Hh) by lia. cbn [timely]. replace (boff b + x - boff b) with x by lia.
    exists n2. eexists. split; [lia|]. split; [reflexivity|]. rewrite Ec. f_equal. apply Fg. lia.
  - rewrite (elements_dense h _ f Hr I) in El. injection El as <-. rewrite map_map. cbn [fst elements_t shape_of].
    apply mapM_seen; [exact Hn|]. assert (G : forall i, In i (cart (sshape t)) -> in_box i (sshape t)) by (intros i Hi; now apply In_cart).
    clear SP. revert G. induction (cart (sshape t)) as [|i is IH]; intros G; cbn [map]; [constructor|]. constructor; [|apply IH; intros y Hy; apply G; now right].
    intros n1 Hn1. specialize (G i (or_introl eq_refl)). pose proof (read_timely (SStrided t) i V G HT n1 Hn1) as X.
    cbn [get_elem_t] in X. unfold strided_elem_t in X. destruct (normal_element i _ G) as (E1 & E2 & E3). rewrite E1 in X. cbn [pbind] in X. rewrite E2, E3 in X.
    destruct (get_position i (sshape t) (sstrides t)) as [p|] eqn:Ep; cbn [pbind] in *; [|destruct X as (m & v & _ & X & _); discriminate].
    unfold item_t. cbn [buf_get_t pbind timely] in *. intros n2 Hn2. specialize (X n2 Hn2).
    destruct (hget (H n2) (baddr (sdata t)) (boff (sdata t) + p)) as [v|]; cbn [timely] in *; [|destruct X as (m & v & _ & X & _); discriminate].
    destruct X as (m & v' & X1 & X2 & X3). injection X2 as <-. exists m, v. split; [exact X1|]. split; [reflexivity|exact X3].
  - destruct Hr as (E & HE & _). now apply (SP E).
  - destruct Hr as (E & HE & _). now apply (SP E).
  - destruct Hr as (E & HE & _). now apply (SP E).
  - destruct Hr as (E & [] & _).
  - rewrite (elements_dense h _ f Hr I) in El. injection El as <-. rewrite map_map. cbn [fst elements_t shape_of].
    apply mapM_seen; [exact Hn|]. assert (G : forall i, In i (cart sh) -> in_box i sh) by (intros i Hi; now apply In_cart).
    clear SP. revert G. induction (cart sh) as [|i is IH]; intros G; cbn [map]; [constructor|]. constructor; [|apply IH; intros y Hy; apply G; now right].
    intros n1 Hn1. specialize (G i (or_introl eq_refl)). pose proof (read_timely (SDM sh rd rsh rs ro d) i V G HT n1 Hn1) as X.
    cbn [get_elem_t] in X. destruct (normal_element i _ G) as (E1 & E2 & E3). rewrite E1 in X. cbn [pbind] in X. rewrite E2, E3 in X.
    destruct (reduce_index rsh rd rs ro i) as [q|] eqn:Eq; cbn [pbind] in *; [|destruct X as (m & v & _ & X & _); discriminate].
    eapply timely_bind; [exact Hn1|exact X| |].
    + intros n2 v Hn2 (m & v' & X1 & X2 & X3). injection X2 as <-. cbn [timely]. exists m, v. split; [exact X1|]. split; [reflexivity|exact X3].
    + intros n2 e _ (m & v' & _ & X2 & _). discriminate.
Qed.
End Elements.

(** The loops put nothing anywhere. *)
Lemma w_mapM {X Y} (R W : nat -> Z -> Prop) (f : X -> prog Y) l : (forall x, within R W (f x)) -> within R W (mapM_t f l).
Proof.
  intros Hf. induction l as [|x l IH]; cbn [mapM_t]; [exact I|]. apply within_bind; [apply Hf|]. intros y.
  apply within_bind; [exact IH|]. intros ys. exact I.
Qed.
Lemma w_elements (R W : nat -> Z -> Prop) s : (forall a p, R a p) -> within R W (elements_t s).
Proof.
  intros HR. assert (IT : forall d ix p, within R W (item_t d ix p)) by (intros d ix p; split; [apply HR|intros v; exact I]).
  destruct s as [b|t|sh ind d|sh fi d|sh cr co d|sh ch a b c d|sh rd rsh rs ro d]; cbn [elements_t].
  - apply w_mapM. intros p. split; [apply HR|intros v; exact I].
  - apply w_mapM. intros ix. apply w_pre. intros p. apply IT.
  - apply w_pre. intros n. apply w_mapM. intros pos. apply w_pre. intros rows. apply within_bind; [|intros ix; apply IT].
    apply w_mapM. intros j. apply w_strided_int. intros p. apply HR.
  - apply w_pre. intros sd. apply w_mapM. intros pos. apply within_bind; [apply w_buf_int; intros p; apply HR|]. intros f.
    apply w_pre. intros i. apply w_pre. intros ix. apply IT.
  - apply w_pre. intros n. generalize (zseq n). intros rows. induction rows as [|r rows IH]; cbn [csr_elements_t]; [exact I|].
    apply within_bind; [apply w_buf_int; intros p; apply HR|]. intros x. apply within_bind; [apply w_buf_int; intros p; apply HR|]. intros y.
    apply within_bind; [apply w_mapM; intros pos; apply within_bind; [apply w_buf_int; intros p; apply HR|intros c; apply IT]|].
    intros l. apply within_bind; [exact IH|]. intros rest. exact I.
  - exact I.
  - apply w_mapM. intros ix. apply w_pre. intros r. apply within_bind; [apply w_get_elem; intros a p _; apply HR|]. intros v. exact I.
Qed.
Lemma leaves_bind {A B} l (m : prog A) (f : A -> prog B) : leaves l m -> (forall x, leaves l (f x)) -> leaves l (pbind m f).
Proof. apply within_bind. Qed.
Lemma leaves_elements l s : leaves l (elements_t s).
Proof. now apply w_elements. Qed.
Lemma leaves_equal l s t : leaves l (equal_t s t).
Proof. apply leaves_bind; [apply leaves_elements|]. intros d1. apply leaves_bind; [apply leaves_elements|]. intros d2. exact I. Qed.
Lemma leaves_end {A B} l (m : prog A) (give : A -> B) : leaves l m -> leaves l (ends_with m give).
Proof. intros Hm. apply leaves_bind; [exact Hm|]. intros x. exact I. Qed.

(** Threads of the library leave the lists they assign to no array with. *)
Lemma leaves_thread l ops : (forall a, In a (written ops) -> ~ In a l) -> leaves l (thread ops).
Proof. intros Hw. eapply within_mono; [| |exact (stays_thread ops)]; cbn; [auto|]. intros a _. apply Hw. Qed.

Lemma elements_current h s l : valid h s -> (is_sparse s -> positive (shape_of s)) -> elements h s = Ok l ->
  Forall (fun p => current h s (fst p) = Ok (snd p)) l.
Proof.
  intros [f Hr] Hp El. apply Forall_forall. intros [k v] Hin. cbn [fst snd].
  assert (SP : forall E, entries h s E -> is_sparse s -> current h s k = Ok v).
  { intros E HE Hsp. rewrite (elements_sparse h s E HE (Hp Hsp)) in El. injection El as <-. apply in_map_iff in Hin as (e & E1 & He). injection E1 as <- <-.
    now apply (current_entry h s E). }
  destruct s as [b|t|sh ind d|sh fi d|sh cr co d|sh ch a b c d|sh rd rsh rs ro d].
  - rewrite (elements_buffer h b f Hr) in El. injection El as <-. apply in_map_iff in Hin as (x & E1 & Hx). injection E1 as <- <-.
    apply current_buffer; [exact Hr|now apply In_zseq].
  - rewrite (elements_dense h _ f Hr I) in El. injection El as <-. apply in_map_iff in Hin as (x & E1 & Hx). injection E1 as <- <-.
    apply current_tuple; [exact Hr|now apply In_cart].
  - destruct Hr as (E & HE & _). now apply (SP E).
  - destruct Hr as (E & HE & _). now apply (SP E).
  - destruct Hr as (E & HE & _). now apply (SP E).
  - destruct Hr as (E & [] & _).
  - rewrite (elements_dense h _ f Hr I) in El. injection El as <-. apply in_map_iff in Hin as (x & E1 & Hx). injection E1 as <- <-.
    apply current_tuple; [exact Hr|now apply In_cart].
Qed.
Lemma same_pairs (P : key -> pyval -> Prop) : (forall k v w, P k v -> P k w -> v = w) -> forall l m : list (key * pyval),
  map fst l = map fst m -> Forall (fun p => P (fst p) (snd p)) l -> Forall (fun p => P (fst p) (snd p)) m -> l = m.
Proof.
  intros HP. induction l as [|[k v] l IH]; intros [|[k' w] m] E Fl Fm; cbn in E; try discriminate; [reflexivity|].
  injection E as <- E. inversion Fl as [|? ? Fl1 Fl2]. inversion Fm as [|? ? Fm1 Fm2]. subst. cbn [fst snd] in *. f_equal; [|now apply IH].
  f_equal. now apply (HP k).
Qed.

(** * The loop and equal(), run alone *)
Lemma run_timely {A} h N (Q : nat -> res A -> Prop) : forall m n, (n <= N)%nat -> timely (fun _ => h) N n Q m -> exists r, run m h = (h, r) /\ Q n r.
Proof.
  induction m as [r|a p k IH|a p v k IH]; intros n Hn Hm; cbn [timely run] in *; [eauto| |contradiction].
  specialize (Hm n ltac:(lia)). destruct (hget h a p) as [v|e]; [now apply IH|eauto].
Qed.
Lemma run_elements h s : valid h s -> (is_sparse s -> positive (shape_of s)) -> run (elements_t s) h = (h, elements h s).
Proof.
  intros V Hp. pose proof V as (f & Hr). destruct (elements_ok h s f Hr Hp) as (l & El & _).
  assert (T : times (fun _ => h) 0 h s) by (intros n _; apply keeps_refl).
  pose proof (elements_timely (fun _ => h) 0 h s V Hp T l 0 El ltac:(lia)) as X.
  destruct (run_timely h 0 _ _ 0%nat ltac:(lia) X) as (r & -> & (l' & ms & -> & E1 & _ & F)). rewrite El. do 2 f_equal.
  apply (same_pairs (fun k v => current h s k = Ok v)); [congruence|exact E1| |now apply elements_current].
  clear -F. induction F; constructor; auto.
Qed.
Theorem C115_alone : forall h s t,
  valid h s -> (is_sparse s -> positive (shape_of s)) -> valid h t -> (is_sparse t -> positive (shape_of t)) ->
  run (elements_t s) h = (h, elements h s) /\ run (equal_t s t) h = (h, equal h s (SrcSto t)).
Proof.
  intros h s t Vs Ps Vt Pt. split; [now apply run_elements|]. unfold equal_t, equal. rewrite run_bind, (run_elements h s Vs Ps).
  destruct (elements h s) as [d1|e]; [|reflexivity]. cbn [bind]. rewrite run_bind, (run_elements h t Vt Pt). destruct (elements h t); reflexivity.
Qed.
Print Assumptions C115_alone.

(** * With other threads *)

(** One thread iterates over elements() of [s]; the others may do anything except
    put things into the lists with the indices of [s].  Its pairs have the keys of
    the elements; the value of each is the one the element has at some moment,
    and these moments are in the order of the pairs. *)
Theorem C115_elements : forall B (give : list (key * pyval) -> B) sched h ts j s l0 h' ts' r,
  valid h s -> (is_sparse s -> positive (shape_of s)) -> elements h s = Ok l0 ->
  nth_error ts j = Some (ends_with (elements_t s) give) ->
  (forall k t, k <> j -> nth_error ts k = Some t -> leaves (index_addrs s) t) ->
  exec sched h ts = (h', ts') -> nth_error ts' j = Some (Ret r) ->
  exists l ms, r = Ok (give l) /\ map fst l = map fst l0 /\ in_order 0 ms (length sched)
    /\ Forall2 (fun n p => current (moment sched h ts n) s (fst p) = Ok (snd p)) ms l.
Proof.
  intros B give sched h ts j s l0 h' ts' r V Hp El Ej Ho E Er.
  assert (F : Forall (leaves (index_addrs s)) ts).
  { apply Forall_forall. intros t Ht. apply In_nth_error in Ht as (k & Hk). destruct (Nat.eq_dec k j) as [->|Nk]; [|now apply (Ho k)].
    rewrite Ej in Hk. injection Hk as <-. apply leaves_end, leaves_elements. }
  set (N := length sched). assert (T : times (moment sched h ts) N h s) by (intros n _; now apply moment_keeps).
  refine (exec_timely (fun n' r => exists l ms, r = Ok (give l) /\ map fst l = map fst l0 /\ in_order 0 ms n' /\ Forall2 (fun n p => current (moment sched h ts n) s (fst p) = Ok (snd p)) ms l)
    (moment sched h ts) N j _ sched h ts 0%nat _ r eq_refl (fun k _ => eq_refl) Ej _ _).
  - intros n n' r' Hn (l & ms & X1 & X2 & X3 & X4). exists l, ms. repeat (split; [assumption|]). split; [|exact X4]. apply in_order_to with n; [lia|exact X3].
  - eapply timely_bind; [lia|exact (elements_timely _ N h s V Hp T l0 0 El ltac:(lia))| |].
    + intros n' l Hn' (l' & ms & X1 & X2 & X3 & X4). injection X1 as ->. cbn [timely]. exists l', ms. auto.
    + intros n' e Hn' (l' & ms & X1 & _). discriminate.
  - rewrite E. exact Er.
Qed.
Print Assumptions C115_elements.

Lemma seen_forall h s l ms (H : nat -> heap) N : Forall2 (fun n p => current (H n) s (fst p) = Ok (snd p)) ms l -> in_order 0 ms N ->
  (forall n k, (n <= N)%nat -> current (H n) s k = current h s k) -> Forall (fun p => current h s (fst p) = Ok (snd p)) l.
Proof.
  intros F Ho HH. assert (G : forall m, In m ms -> (m <= N)%nat) by (intros m Hm; now apply (in_order_in ms 0 N m)). clear Ho. revert G.
  induction F as [|n p ms l Hp F IH]; intros G; constructor; [rewrite <- (HH n) by (apply G; now left); exact Hp|]. apply IH. intros m Hm. apply G. now right.
Qed.
Lemma Forall2_in_r {X Y} (P : X -> Y -> Prop) : forall l m y, Forall2 P l m -> In y m -> exists x, In x l /\ P x y.
Proof. induction 1 as [|x z l m HP F IH]; intros Hy; [contradiction|]. destruct Hy as [<-|Hy]; [exists x; split; [now left|exact HP]|]. destruct (IH Hy) as (w & Hw & Pw). exists w. split; [now right|exact Pw]. Qed.

Lemma equal_seen : forall B (give : bool -> B) sched h ts j s t l0 m0 h' ts' r,
  valid h s -> (is_sparse s -> positive (shape_of s)) -> elements h s = Ok l0 ->
  valid h t -> (is_sparse t -> positive (shape_of t)) -> elements h t = Ok m0 ->
  nth_error ts j = Some (ends_with (equal_t s t) give) ->
  (forall k x, k <> j -> nth_error ts k = Some x -> leaves (index_addrs s ++ index_addrs t) x) ->
  exec sched h ts = (h', ts') -> nth_error ts' j = Some (Ret r) ->
  exists l ms m ns k, r = Ok (give (dict_eqb l m)) /\ map fst l = map fst l0 /\ map fst m = map fst m0
    /\ in_order 0 ms k /\ in_order k ns (length sched)
    /\ Forall2 (fun n p => current (moment sched h ts n) s (fst p) = Ok (snd p)) ms l
    /\ Forall2 (fun n p => current (moment sched h ts n) t (fst p) = Ok (snd p)) ns m.
Proof.
  intros B give sched h ts j s t l0 m0 h' ts' r Vs Ps Es Vt Pt Et Ej Ho E Er.
  assert (F : Forall (leaves (index_addrs s ++ index_addrs t)) ts).
  { apply Forall_forall. intros x Hx. apply In_nth_error in Hx as (k & Hk). destruct (Nat.eq_dec k j) as [->|Nk]; [|now apply (Ho k)].
    rewrite Ej in Hk. injection Hk as <-. apply leaves_end, leaves_equal. }
  assert (Fs : Forall (leaves (index_addrs s)) ts).
  { eapply Forall_impl; [|exact F]. intros x Hx. eapply within_mono; [| |exact Hx]; cbn; [auto|]. intros a _ Ha Hi. apply Ha, in_or_app. now left. }
  assert (Ft : Forall (leaves (index_addrs t)) ts).
  { eapply Forall_impl; [|exact F]. intros x Hx. eapply within_mono; [| |exact Hx]; cbn; [auto|]. intros a _ Ha Hi. apply Ha, in_or_app. now right. }
  set (N := length sched). set (H := moment sched h ts).
  assert (Ts : times H N h s) by (intros n _; now apply moment_keeps). assert (Tt : times H N h t) by (intros n _; now apply moment_keeps).
  refine (exec_timely (fun n' r => exists l ms m ns k, r = Ok (give (dict_eqb l m)) /\ map fst l = map fst l0 /\ map fst m = map fst m0
    /\ in_order 0 ms k /\ in_order k ns n'
    /\ Forall2 (fun n p => current (H n) s (fst p) = Ok (snd p)) ms l /\ Forall2 (fun n p => current (H n) t (fst p) = Ok (snd p)) ns m)
    H N j _ sched h ts 0%nat _ r eq_refl (fun k _ => eq_refl) Ej _ _).
  - intros n n' r' Hn (l & ms & m & ns & k & X1 & X2 & X3 & X4 & X5 & X6). exists l, ms, m, ns, k. repeat (split; [assumption|]). split; [|exact X6]. apply in_order_to with n; [lia|exact X5].
  - unfold ends_with, equal_t.
    assert (A : forall (m : prog (list (key * pyval))) (f : list (key * pyval) -> prog bool) (g : bool -> prog B),
      pbind (pbind m f) g = pbind m (fun x => pbind (f x) g) \/ True) by (intros; now right). clear A.
    eapply timely_bind with (Q1 := fun n' (r : res bool) => exists l ms m ns k, r = Ok (dict_eqb l m) /\ map fst l = map fst l0 /\ map fst m = map fst m0
      /\ in_order 0 ms k /\ in_order k ns n'
      /\ Forall2 (fun n p => current (H n) s (fst p) = Ok (snd p)) ms l /\ Forall2 (fun n p => current (H n) t (fst p) = Ok (snd p)) ns m); [lia| | |].
    + eapply timely_bind; [lia|exact (elements_timely H N h s Vs Ps Ts l0 0 Es ltac:(lia))| |].
      * intros n1 l Hn1 (l' & ms & X1 & X2 & X3 & X4). injection X1 as ->.
        eapply timely_bind; [lia|exact (elements_timely H N h t Vt Pt Tt m0 n1 Et ltac:(lia))| |].
        -- intros n2 m Hn2 (m' & ns & Y1 & Y2 & Y3 & Y4). injection Y1 as ->. cbn [timely]. exists l', ms, m', ns, n1. split; [reflexivity|]. auto 10.
        -- intros n2 e Hn2 (m' & ns & Y1 & _). discriminate.
      * intros n1 e Hn1 (l' & ms & X1 & _). discriminate.
    + intros n1 b Hn1 (l & ms & m & ns & k & X1 & X). injection X1 as ->. cbn [timely]. exists l, ms, m, ns, k. split; [reflexivity|exact X].
    + intros n1 e Hn1 (l & ms & m & ns & k & X1 & _). discriminate.
  - rewrite E. exact Er.
Qed.

Definition key_dec (a b : key) : {a = b} + {a <> b}.
Proof. decide equality; [apply Z.eq_dec|apply (list_eq_dec Z.eq_dec)]. Defined.
Definition pair_dec (p q : key * pyval) : {p = q} + {p <> q}.
Proof.
  destruct p as [k x], q as [k' y]. destruct (key_dec k k') as [->|N]; [|right; congruence].
  destruct (veqb x y) eqn:E; [left; apply veqb_eq in E; congruence|right; intros X; injection X as ->; rewrite veqb_refl in E; discriminate].
Defined.
Lemma NoDup_keys (m : list (key * pyval)) q x y : NoDup (map fst m) -> In (q, x) m -> In (q, y) m -> x = y.
Proof.
  induction m as [|[k v] m IH]; intros N Hx Hy; [contradiction|]. cbn [map fst] in N. inversion N as [|? ? N1 N2]. subst.
  destruct Hx as [Ex|Hx], Hy as [Ey|Hy]; [congruence| | |now apply IH].
  - injection Ex as -> ->. contradict N1. apply in_map_iff. now exists (q, y).
  - injection Ey as -> ->. contradict N1. apply in_map_iff. now exists (q, x).
Qed.

(** One thread compares [s] and [t].  True means that the arrays have the same keys
    and that for each key the value [s] had at one moment is the value [t] had then
    or later; False means that they have not the same keys, or that for some key
    the two values were different. *)
Theorem C115_equal : forall B (give : bool -> B) sched h ts j s t l0 m0 h' ts' r,
  valid h s -> (is_sparse s -> positive (shape_of s)) -> elements h s = Ok l0 ->
  valid h t -> (is_sparse t -> positive (shape_of t)) -> elements h t = Ok m0 ->
  nth_error ts j = Some (ends_with (equal_t s t) give) ->
  (forall k x, k <> j -> nth_error ts k = Some x -> leaves (index_addrs s ++ index_addrs t) x) ->
  exec sched h ts = (h', ts') -> nth_error ts' j = Some (Ret r) ->
  let found k x y := exists n n', (n <= n' <= length sched)%nat
    /\ current (moment sched h ts n) s k = Ok x /\ current (moment sched h ts n') t k = Ok y in
  exists b, r = Ok (give b)
  /\ (b = true -> forall k, (In k (map fst l0) <-> In k (map fst m0)) /\ (In k (map fst l0) -> exists x, found k x x))
  /\ (b = false -> (exists k, ~ (In k (map fst l0) <-> In k (map fst m0))) \/ exists k x y, found k x y /\ x <> y).
Proof.
  intros B give sched h ts j s t l0 m0 h' ts' r Vs Ps Es Vt Pt Et Ej Ho E Er found.
  destruct (equal_seen B give sched h ts j s t l0 m0 h' ts' r Vs Ps Es Vt Pt Et Ej Ho E Er) as (l & ms & m & ns & k & X1 & X2 & X3 & X4 & X5 & X6 & X7).
  pose proof Vs as (f & Hf). pose proof Vt as (g & Hg).
  destruct (elements_ok h s f Hf Ps) as (l' & El' & Nl). rewrite Es in El'. injection El' as <-.
  destruct (elements_ok h t g Hg Pt) as (m' & Em' & Nm). rewrite Et in Em'. injection Em' as <-.
  rewrite <- X2 in *. rewrite <- X3 in *. clear X2 X3.
  assert (Fd : forall q x y, In (q, x) l -> In (q, y) m -> found q x y).
  { intros q x y Hx Hy. destruct (Forall2_in_r _ _ _ _ X6 Hx) as (n & Hn & Cn). destruct (Forall2_in_r _ _ _ _ X7 Hy) as (n' & Hn' & Cn').
    exists n, n'. cbn [fst snd] in *. pose proof (in_order_in _ _ _ _ X4 Hn). pose proof (in_order_in _ _ _ _ X5 Hn'). split; [lia|]. now split. }
  exists (dict_eqb l m). split; [exact X1|]. pose proof (dict_eqb_iff l m Nl Nm) as D. split.
  - intros Eb q. pose proof (proj1 D Eb) as D1. split.
    + rewrite !in_map_iff. split; intros ([q' x] & Eq & Hx); (exists (q', x); split; [exact Eq|]); now apply D1.
    + intros Hq. apply in_map_iff in Hq as ([q' x] & Eq & Hx). cbn [fst] in Eq. subst q'. exists x. apply Fd; [exact Hx|now apply D1].
  - intros Eb. assert (ND : ~ (forall p, In p l <-> In p m)) by (intros D1; apply D in D1; congruence). clear D Eb.
    destruct (Forall_Exists_dec _ (fun p => in_dec key_dec (fst p) (map fst m)) l) as [Kl|Kl].
    2: { left. apply Exists_exists in Kl as (p & Hp & Np). exists (fst p). intros [X _]. apply Np, X, in_map, Hp. }
    destruct (Forall_Exists_dec _ (fun p => in_dec key_dec (fst p) (map fst l)) m) as [Km|Km].
    2: { left. apply Exists_exists in Km as (p & Hp & Np). exists (fst p). intros [_ X]. apply Np, X, in_map, Hp. }
    right. destruct (Forall_Exists_dec _ (fun p => in_dec pair_dec p m) l) as [Pl|Pl].
    + exfalso. apply ND. intros p. rewrite Forall_forall in Pl, Km. split; [apply Pl|]. intros Hp. specialize (Km p Hp).
      apply in_map_iff in Km as ([q x] & Eq & Hx). destruct p as [q' y]. cbn [fst] in Eq. subst q'.
      assert (y = x) as -> by (apply (NoDup_keys m q); [exact Nm|exact Hp|apply Pl, Hx]). exact Hx.
    + apply Exists_exists in Pl as ([q x] & Hx & Nx). rewrite Forall_forall in Kl. specialize (Kl _ Hx). cbn [fst] in Kl.
      apply in_map_iff in Kl as ([q' y] & Eq & Hy). cbn [fst] in Eq. subst q'. exists q, x, y. split; [now apply Fd|]. intros ->. contradiction.
Qed.
Print Assumptions C115_equal.

(** While the others leave both arrays alone, equal() gives what it gives when it is
    called alone. *)
Lemma current_frame h h' s k v : (forall a, In a (addrs s) -> nth_error h' a = nth_error h a) -> current h s k = Ok v -> current h' s k = Ok v.
Proof.
  intros E H. unfold current in *. apply bind_ok in H as ([it h1] & H & Hx). destruct it as [x|]; [|discriminate]. injection Hx as ->.
  now rewrite (getitem_val_frame s h h' _ _ _ E H).
Qed.
Lemma index_in_addrs s a : In a (index_addrs s) -> In a (addrs s).
Proof. induction s; cbn [index_addrs addrs In]; auto; tauto. Qed.

Theorem C115_still : forall B (give : bool -> B) sched h ts j s t h' ts' r,
  valid h s -> (is_sparse s -> positive (shape_of s)) -> valid h t -> (is_sparse t -> positive (shape_of t)) ->
  nth_error ts j = Some (ends_with (equal_t s t) give) ->
  (forall k x, k <> j -> nth_error ts k = Some x -> leaves (addrs s ++ addrs t) x) ->
  exec sched h ts = (h', ts') -> nth_error ts' j = Some (Ret r) ->
  exists b, equal h s (SrcSto t) = Ok b /\ r = Ok (give b).
Proof.
  intros B give sched h ts j s t h' ts' r Vs Ps Vt Pt Ej Ho E Er. pose proof Vs as (f & Hf). pose proof Vt as (g & Hg).
  destruct (elements_ok h s f Hf Ps) as (l0 & Es & _). destruct (elements_ok h t g Hg Pt) as (m0 & Et & _).
  destruct (equal_seen B give sched h ts j s t l0 m0 h' ts' r Vs Ps Es Vt Pt Et Ej) as (l & ms & m & ns & k & X1 & X2 & X3 & X4 & X5 & X6 & X7); [|exact E|exact Er|].
  { intros k x Nk Hk. eapply within_mono; [| |exact (Ho k x Nk Hk)]; cbv beta; [auto|]. intros a _ Ha Hi. apply Ha, in_or_app.
    apply in_app_or in Hi as [Hi|Hi]; [left|right]; now apply index_in_addrs. }
  assert (F : Forall (leaves (addrs s ++ addrs t)) ts).
  { apply Forall_forall. intros x Hx. apply In_nth_error in Hx as (i & Hi). destruct (Nat.eq_dec i j) as [->|Nk]; [|now apply (Ho i)].
    rewrite Ej in Hi. injection Hi as <-. apply leaves_end, leaves_equal. }
  assert (Fr : forall n a, In a (addrs s ++ addrs t) -> nth_error (moment sched h ts n) a = nth_error h a).
  { intros n a Ha. unfold moment. destruct (exec (firstn n sched) h ts) as [h1 ts1] eqn:E1. cbn [fst]. now apply (exec_leaves _ _ _ _ _ _ F E1). }
  assert (G : forall q L K, (forall a, In a (addrs q) -> In a (addrs s ++ addrs t)) -> Forall2 (fun n p => current (moment sched h ts n) q (fst p) = Ok (snd p)) K L ->
    Forall (fun p => current h q (fst p) = Ok (snd p)) L).
  { intros q L K Hq FF. induction FF as [|n p K L Hp FF IH]; constructor; [|exact IH]. eapply current_frame; [|exact Hp]. intros a Ha. symmetry. apply Fr, Hq, Ha. }
  assert (l = l0) as ->.
  { apply (same_pairs (fun k v => current h s k = Ok v)); [congruence|exact X2| |now apply elements_current]. apply (G s l ms); [intros a Ha; apply in_or_app; now left|exact X6]. }
  assert (m = m0) as ->.
  { apply (same_pairs (fun k v => current h t k = Ok v)); [congruence|exact X3| |now apply elements_current]. apply (G t m ns); [intros a Ha; apply in_or_app; now right|exact X7]. }
  exists (dict_eqb l0 m0). split; [|exact X1]. unfold equal. rewrite Es. cbn [bind]. rewrite Et. reflexivity.
Qed.
Print Assumptions C115_still.

(** * Conversions *)

Lemma value_read_pair : forall l xs i x, NoDup l -> In (i, x) (combine l xs) -> value_read l xs i = Ok x.
Proof.
  induction l as [|j l IH]; intros [|y xs] i x ND Hin; cbn [combine value_read] in *; try contradiction.
  inversion ND as [|? ? N1 N2]; subst. destruct Hin as [Eq|Hin].
  - injection Eq as -> ->. now rewrite lex_eqb_refl.
  - destruct (lex_eqb j i) eqn:Eq; [|now apply IH]. apply lex_eqb_eq in Eq as ->. apply in_combine_l in Hin. contradiction.
Qed.

(** The elements of a conversion (Copies.v) made while other threads run: the
    others may do anything except put things into the lists with the indices of
    [s], and the elements are those [s] has at moments in the order of the indices. *)
Lemma leaves_copy l s : leaves l (copy_t s).
Proof.
  apply w_mapM. intros i. cbn [get_value_t]. destruct i; [exact I|]. apply w_get_elem. auto.
Qed.

Theorem C115_conversion : forall B (give : list pyval -> B) sched h ts j s c u h' ts' r,
  valid h s -> shape_of s <> [] ->
  nth_error ts j = Some (ends_with (copy_t s) give) ->
  (forall k x, k <> j -> nth_error ts k = Some x -> leaves (index_addrs s) x) ->
  exec sched h ts = (h', ts') -> nth_error ts' j = Some (Ret r) ->
  class_rank c (shape_of s) -> c <> CDM ->
  exists xs, r = Ok (give xs)
  /\ ((c = CCSR -> Exists (fun x => conv_value (unspecified_of s) u x <> u) xs) ->
      exists s' h'' ms, copy_of c s u xs h' = Ok (s', h'') /\ is_class c s'
        /\ shape_of s' = shape_of s /\ unspecified_of s' = u /\ extends h' h'' /\ fresh h' s'
        /\ in_order 0 ms (length sched)
        /\ Forall2 (fun n i => exists x, get_elem (moment sched h ts n) s i = Ok x
                                 /\ get_elem h'' s' i = Ok (conv_value (unspecified_of s) u x)) ms (cart (shape_of s))).
Proof.
  intros B give sched h ts j s c u h' ts' r V Hne Ej Ho E Er Hc Hd.
  assert (F : Forall (leaves (index_addrs s)) ts).
  { apply Forall_forall. intros x Hx. apply In_nth_error in Hx as (k & Hk). destruct (Nat.eq_dec k j) as [->|Nk]; [|now apply (Ho k)].
    rewrite Ej in Hk. injection Hk as <-. apply leaves_end, leaves_copy. }
  set (N := length sched). set (H := moment sched h ts).
  assert (T : times H N h s) by (intros n _; now apply moment_keeps).
  assert (X : exists xs ms, r = Ok (give xs) /\ in_order 0 ms N /\ Forall2 (fun n p => get_elem (H n) s (fst p) = Ok (snd p)) ms (combine (cart (shape_of s)) xs)
    /\ length xs = length (cart (shape_of s))).
  { refine (exec_timely (fun n' r => exists xs ms, r = Ok (give xs) /\ in_order 0 ms n' /\ Forall2 (fun n p => get_elem (H n) s (fst p) = Ok (snd p)) ms (combine (cart (shape_of s)) xs)
      /\ length xs = length (cart (shape_of s))) H N j _ sched h ts 0%nat _ r eq_refl (fun k _ => eq_refl) Ej _ _).
    - intros n n' r' Hn (xs & ms & X1 & X2 & X3). exists xs, ms. split; [exact X1|]. split; [|exact X3]. apply in_order_to with n; [lia|exact X2].
    - eapply timely_bind with (Q1 := fun n' (r : res (list pyval)) => exists xs ms, r = Ok xs /\ in_order 0 ms n'
        /\ Forall2 (fun n p => get_elem (H n) s (fst p) = Ok (snd p)) ms (combine (cart (shape_of s)) xs) /\ length xs = length (cart (shape_of s))); [lia| | |].
      + unfold copy_t. assert (GG : forall l n, (n <= N)%nat -> (forall i, In i l -> in_box i (shape_of s)) ->
          timely H N n (fun n' (r : res (list pyval)) => exists xs ms, r = Ok xs /\ in_order n ms n'
            /\ Forall2 (fun n p => get_elem (H n) s (fst p) = Ok (snd p)) ms (combine l xs) /\ length xs = length l) (mapM_t (get_value_t (SrcSto s)) l)).
        { induction l as [|i l IH]; intros n Hn Hl; cbn [mapM_t timely]; [exists [], []; repeat split; constructor|].
          assert (Hi : in_box i (shape_of s)) by (apply Hl; now left).
          assert (Eg : get_value_t (SrcSto s) i = get_elem_t s i).
          { destruct i; [apply Forall2_len in Hi; destruct (shape_of s); [congruence|discriminate]|reflexivity]. }
          rewrite Eg. eapply timely_bind; [exact Hn|exact (read_timely H N h s i V Hi T n Hn)| |].
          - intros n1 v Hn1 (m & v' & Hm & Ev & Gm). injection Ev as ->.
            eapply timely_bind; [|exact (IH n1 ltac:(lia) (fun q Hq => Hl q (or_intror Hq)))| |]; [lia| |].
            + intros n2 ys Hn2 (xs & ms & E1 & E2 & E3 & E4). injection E1 as ->. cbn [timely]. exists (v' :: xs), (m :: ms).
              split; [reflexivity|]. split; [split; [lia|]; apply in_order_from with n1; [lia|exact E2]|]. split; [constructor; [exact Gm|exact E3]|cbn; lia].
            + intros n2 e Hn2 (xs & ms & E1 & _). discriminate.
          - intros n1 e Hn1 (m & v' & _ & Ev & _). discriminate. }
        apply GG; [lia|]. intros i. apply In_cart.
      + intros n1 xs Hn1 (xs' & ms & X1 & X). injection X1 as ->. cbn [timely]. exists xs', ms. auto.
      + intros n1 e Hn1 (xs' & ms & X1 & _). discriminate.
    - rewrite E. exact Er. }
  destruct X as (xs & ms & -> & O & G & L). exists xs. split; [reflexivity|]. intros Hcsr.
  pose proof V as (f0 & Hr0). pose proof (repr_nonneg _ _ _ Hr0) as Hn.
  set (g := fun i => match value_read (cart (shape_of s)) xs i with Ok x => x | Raise _ => VNone end).
  assert (Hg : forall i, in_box i (shape_of s) -> value_read (cart (shape_of s)) xs i = Ok (g i)).
  { intros i Hi. unfold g. apply In_cart in Hi. destruct (value_read_some _ xs i Hi L) as (x & ->). reflexivity. }
  destruct (build_values c h' (shape_of s) (unspecified_of s) u g (value_read (cart (shape_of s)) xs) Hd Hn Hg)
    as (s' & h'' & E1 & E2 & E3 & E4 & E5 & E6 & E7).
  - destruct c; cbn [class_rank class_ok] in *; try assumption; try congruence. split; [exact Hc|].
    specialize (Hcsr eq_refl). apply Exists_exists in Hcsr as (x & Hx & Hne').
    destruct (value_read_all _ xs x (sorted_NoDup _ (cart_sorted (shape_of s))) L Hx) as (i & Hi & Ei).
    exists i. apply In_cart in Hi. split; [exact Hi|]. pose proof (Hg i Hi) as Eg. rewrite Ei in Eg. injection Eg as <-. exact Hne'.
  - exists s', h'', ms. split; [exact E1|]. split; [exact E2|]. split; [exact E3|]. split; [exact E4|]. split; [exact E5|]. split; [exact E6|]. split; [exact O|].
    pose proof (sorted_NoDup _ (cart_sorted (shape_of s))) as ND.
    assert (Hin : forall i, In i (cart (shape_of s)) -> get_elem h'' s' i = Ok (conv_value (unspecified_of s) u (g i))).
    { intros i Hi. apply In_cart in Hi. rewrite <- E3 in Hi. exact (repr_get _ _ _ _ E7 Hi). }
    assert (Hgi : forall i x, In (i, x) (combine (cart (shape_of s)) xs) -> g i = x).
    { intros i x Hi. unfold g. rewrite (value_read_pair _ xs i x ND Hi). reflexivity. }
    clearbody g. clear -G L Hin Hgi. revert xs ms G L Hgi. induction (cart (shape_of s)) as [|i l IH]; intros xs ms G L Hgi.
    + destruct xs; [|discriminate]. inversion G. constructor.
    + destruct xs as [|x xs]; [discriminate|]. cbn [combine] in *. inversion G as [|n ? ms' ? G1 G2]; subst. constructor.
      * exists x. split; [exact G1|]. rewrite Hin by now left. rewrite (Hgi i x) by now left. reflexivity.
      * apply (IH (fun q Hq => Hin q (or_intror Hq)) xs); [exact G2|cbn in L; lia|]. intros q y Hq. apply Hgi. now right.
Qed.
Print Assumptions C115_conversion.

(** True although at no moment all elements are equal: s is [7, 7] while t is [3, 4],
    and when t has become [7, 7] s is [1, 2]. *)
Definition first_pair : storage := SStrided (Str [2] [1] (Buf 2 0 0 VNone)).
Definition second_pair : storage := SStrided (Str [2] [1] (Buf 2 0 1 VNone)).
Lemma pairs_valid a b c d : let h := [[VInt a; VInt b]; [VInt c; VInt d]] in valid h first_pair /\ valid h second_pair.
Proof.
  split.
  - eexists (fun i => nth (Z.to_nat (spos (Str [2] [1] (Buf 2 0 0 VNone)) i)) [VInt a; VInt b] VNone). exists [VInt a; VInt b]. split; [reflexivity|].
    split; [|reflexivity]. constructor; cbn [sshape sstrides sdata bsize boff]; try lia; try (cbn; lia); try reflexivity; try (repeat constructor; lia).
    + intros i Hi. apply box1 in Hi as (x & -> & Hx). unfold spos. cbn -[Z.mul Z.add]. lia.
    + intros i j Hi Hj. apply box1 in Hi as (x & -> & Hx). apply box1 in Hj as (y & -> & Hy). unfold spos. cbn -[Z.mul Z.add]. intros Exy. f_equal. lia.
  - eexists (fun i => nth (Z.to_nat (spos (Str [2] [1] (Buf 2 0 1 VNone)) i)) [VInt c; VInt d] VNone). exists [VInt c; VInt d]. split; [reflexivity|].
    split; [|reflexivity]. constructor; cbn [sshape sstrides sdata bsize boff]; try lia; try (cbn; lia); try reflexivity; try (repeat constructor; lia).
    + intros i Hi. apply box1 in Hi as (x & -> & Hx). unfold spos. cbn -[Z.mul Z.add]. lia.
    + intros i j Hi Hj. apply box1 in Hi as (x & -> & Hx). apply box1 in Hj as (y & -> & Hy). unfold spos. cbn -[Z.mul Z.add]. intros Exy. f_equal. lia.
Qed.
Definition one_or_zero (b : bool) : list pyval := [VInt (if b then 1 else 0)].

Theorem C115_never : exists sched h h' s t ops,
  valid h s /\ valid h t /\ Forall (flow_op h) ops
  /\ exec sched h [ends_with (equal_t s t) one_or_zero; thread ops] = (h', [Ret (Ok (one_or_zero true)); Ret (Ok [])])
  /\ forall n, equal (moment sched h [ends_with (equal_t s t) one_or_zero; thread ops] n) s (SrcSto t) = Ok false.
Proof.
  exists [0; 0; 1; 1; 1; 1; 0; 0]%nat, [[VInt 7; VInt 7]; [VInt 3; VInt 4]], [[VInt 1; VInt 2]; [VInt 7; VInt 7]], first_pair, second_pair,
    [Assign first_pair everything (SrcSeq (VSeq [VInt 1; VInt 2])); Assign second_pair everything (SrcSeq (VSeq [VInt 7; VInt 7]))].
  destruct (pairs_valid 7 7 3 4) as [V1 V2]. split; [exact V1|]. split; [exact V2|]. split; [|split; [vm_compute; reflexivity|]].
  - constructor; [|constructor; [|constructor]].
    + split; [exact V1|]. split; [repeat constructor; lia|].
      split; [apply everything_ok; lia|]. split; [exact I|]. split; [reflexivity|]. split; [discriminate|]. repeat constructor.
    + split; [exact V2|]. split; [repeat constructor; lia|].
      split; [apply everything_ok; lia|]. split; [exact I|]. split; [reflexivity|]. split; [discriminate|]. repeat constructor.
  - intros n. do 8 (destruct n as [|n]; [vm_compute; reflexivity|]). unfold moment. rewrite firstn_all2 by (cbn; lia). vm_compute. reflexivity.
Qed.
Print Assumptions C115_never.

(** A loop over a sparse array and its comparison with a dense one over the same data
    list, while two threads assign. *)
Example C115_case :
  let others := map thread [[Assign sparse_view everything (SrcSeq (VSeq (map VInt [1; 2; 3; 4; 5; 6])))];
                            [Assign dense_view everything (SrcSto reversed_view)]] in
  valid shared_lists sparse_view /\ positive (shape_of sparse_view) /\ valid shared_lists dense_view
  /\ Forall (leaves (index_addrs sparse_view ++ index_addrs dense_view)) others
  /\ (exists sched h' ts' l, exec sched shared_lists (ends_with (elements_t sparse_view) (map snd) :: others) = (h', Ret (Ok l) :: ts')
       /\ Forall (fun t => exists r, t = Ret (Ok r)) ts' /\ l = map VInt [10; 3; 30])
  /\ (exists sched h' ts', exec sched shared_lists (ends_with (equal_t sparse_view dense_view) one_or_zero :: others) = (h', Ret (Ok (one_or_zero false)) :: ts')).
Proof.
  cbv zeta. split; [exact sparse_view_valid|]. split; [repeat constructor; lia|]. split; [exact dense_view_valid|]. split; [|split].
  - constructor; [|constructor; [|constructor]]; apply leaves_thread; cbn; intros a [<-|[]]; intros X; repeat destruct X as [X|X]; try discriminate; contradiction.
  - exists ([0; 0; 0; 1; 1; 2; 2; 1; 1; 1; 2; 0; 0; 0; 1; 1; 1] ++ repeat 1 30 ++ repeat 2 30 ++ repeat 0 30)%nat. eexists _, _, _. split; [vm_compute; reflexivity|]. split; [|reflexivity].
    repeat (constructor; [eexists; reflexivity|]). constructor.
  - exists ([0; 0; 0; 1; 1; 2; 2; 1; 1; 1; 2; 0; 0; 0; 1; 1; 1] ++ repeat 1 30 ++ repeat 2 30 ++ repeat 0 60)%nat. eexists _, _. vm_compute. reflexivity.
Qed.

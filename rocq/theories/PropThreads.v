(** C94, C95, C96: arrays used from several threads. *)
From Verif Require Import Py SliceTools Basics Storage Spec SliceFacts IndexFacts SolverFacts Repr ReprFacts
  CompressFacts ReduceFacts MapFacts WriteFacts Threads ThreadFacts.

(** The lists the statements of a thread assign to, and all the lists of the
    arrays it uses. *)
Definition written (ops : list op) : list nat :=
  flat_map (fun o => match o with Read _ _ => [] | Assign s _ _ => [data_addr s] end) ops.
Definition touched (ops : list op) : list nat :=
  flat_map (fun o => match o with
                     | Read s _ => addrs s
                     | Assign s _ (SrcSeq _) => addrs s
                     | Assign s _ (SrcSto v) => addrs s ++ addrs v
                     end) ops.
(** No thread assigns to an array that shares data with an array of another. *)
Definition separate (programs : list (list op)) : Prop :=
  forall j k P Q, j <> k -> nth_error programs j = Some P -> nth_error programs k = Some Q ->
  forall a, In a (written P) -> ~ In a (touched Q).

Lemma in_turn_threads : forall programs h, Forall (Forall op_fits) programs ->
  in_turn (map thread programs) h = perform_all h programs.
Proof.
  unfold in_turn. induction programs as [|P programs IH]; intros h H; [reflexivity|]. inversion H; subst.
  cbn [map fold_left perform_all]. rewrite run_thread by assumption. now apply IH.
Qed.

Lemma finished {A} (rs : list (res A)) h : in_turn (map Ret rs) h = h.
Proof. unfold in_turn. induction rs as [|r rs IH]; [reflexivity|exact IH]. Qed.

Lemma together programs fs h sched h' rs : Forall (Forall op_fits) programs ->
  Forall2 stays fs (map thread programs) -> all_apart (sizes h) fs ->
  exec sched h (map thread programs) = (h', map Ret rs) ->
  h' = perform_all h programs /\ rs = map (fun ops => snd (perform h ops)) programs.
Proof.
  intros F HS HA H. destruct (exec_inv _ _ _ _ _ _ HS HA H) as [E1 E2]. rewrite finished, in_turn_threads in E1 by exact F.
  split; [exact E1|]. clear - F E2. revert rs E2. induction F as [|P programs HP _ IH]; intros [|r rs] E; inversion E; subst; [reflexivity|].
  cbn [map]. f_equal; [|now apply IH]. cbn [run snd] in *. rewrite run_thread in * by exact HP. assumption.
Qed.

Definition by_lists (ops : list op) : footprint := FP (fun a _ => In a (touched ops)) (fun a _ => In a (written ops)).

Lemma written_touched ops a : In a (written ops) -> In a (touched ops).
Proof.
  intros H. apply in_flat_map in H as (o & Ho & H). apply in_flat_map. exists o. split; [exact Ho|].
  destruct o as [s i|s ix value]; [destruct H|]. destruct H as [<-|[]]. destruct value; [left; reflexivity|apply in_or_app; left; left; reflexivity].
Qed.

Lemma stays_thread ops : stays (by_lists ops) (thread ops).
Proof.
  unfold stays. cbn [fr fw by_lists].
  assert (G : forall (R W : nat -> Z -> Prop) r, (forall a p, In a (touched r) -> R a p) -> (forall a p, In a (written r) -> W a p) ->
    within R W (thread r)).
  { intros R W. induction r as [|o r IH]; intros H1 H2; [exact I|].
    assert (I1 : within R W (thread r)).
    { apply IH; intros a p H; [apply H1|apply H2]; cbn [touched written flat_map]; apply in_or_app; now right. }
    destruct o as [s i|s ix value]; cbn [thread].
    - apply within_bind.
      + apply w_get_elem. intros a p H. apply H1. cbn [touched flat_map]. apply in_or_app. now left.
      + intros x. apply within_bind; [exact I1|]. intros xs. exact I.
    - apply within_bind; [|intros _; exact I1]. apply w_setitem.
      + intros a p H. apply H1. cbn [touched flat_map]. apply in_or_app. left. destruct value; [exact H|apply in_or_app; now left].
      + intros a p H. apply H1. cbn [touched flat_map]. apply in_or_app. left. destruct value; [destruct H|apply in_or_app; now right].
      + intros p. apply H2. left. reflexivity. }
  apply G; auto.
Qed.

(** Threads that assign to separate arrays: whatever the schedule, the arrays end
    up as if the threads had run one after the other, and every thread reads
    what it would read alone and ends as it would end alone, also with the same
    exception. *)
Theorem C94_any_schedule : forall programs h sched h' rs,
  Forall (Forall op_fits) programs -> separate programs ->
  exec sched h (map thread programs) = (h', map Ret rs) ->
  h' = perform_all h programs /\ rs = map (fun ops => snd (perform h ops)) programs.
Proof.
  intros programs h sched h' rs F S H. apply (together programs (map by_lists programs) h sched); [exact F| | |exact H].
  - clear. induction programs as [|P programs IH]; constructor; [apply stays_thread|exact IH].
  - intros j k f g N Ef Eg. rewrite nth_error_map in Ef, Eg.
    destruct (nth_error programs j) as [P|] eqn:Ej; [|discriminate]. destruct (nth_error programs k) as [Q|] eqn:Ek; [|discriminate].
    injection Ef as <-. injection Eg as <-. intros a p b q H1 H2. cbn [fr fw by_lists] in *. left. intros <-.
    apply (S j k P Q N Ej Ek a H1). destruct H2 as [H2|H2]; [exact H2|now apply written_touched].
Qed.
Print Assumptions C94_any_schedule.

(** Every well-formed array has the dimensions it should have (a DM array if it has
    an element). *)
Lemma dm_index_length : forall rd rs ro i, length rs = length rd -> length ro = length rd -> length (dm_index rd rs ro i) = length rd.
Proof.
  induction rd as [|g rd IH]; intros [|s rs] [|o ro] i L1 L2; try discriminate; [reflexivity|]. cbn. f_equal. apply IH; cbn in *; lia.
Qed.
Lemma box_positive i sh : in_box i sh -> positive sh.
Proof. induction 1 as [|x n i sh Hx _ IH]; constructor; [lia|exact IH]. Qed.
Theorem C94_arrays_fit : forall h s, valid h s ->
  match s with SDM _ _ _ _ _ _ => positive (shape_of s) | _ => True end -> fits s.
Proof.
  intros h s. induction s as [b|t|sh ind d|sh fi d|sh cr co d|sh ch a b c d|sh rd rsh rs ro d IH]; intros [f H] Hp; cbn [fits]; try exact I.
  - destruct H as (l & _ & H & _). apply H.
  - destruct H as (E & H & _). destruct H as (_ & _ & _ & _ & H & _). rewrite H. reflexivity.
  - destruct H as (g & Hg & H & _). cbn [shape_of] in Hp.
    assert (B : in_box (map (fun _ => 0) sh) sh). { clear - Hp. induction Hp; constructor; [lia|exact IHHp]. }
    apply (dm_box _ _ _ _ _ _ H) in B. split.
    + rewrite <- (Forall2_len _ _ _ B), dm_index_length.
      * rewrite (dm_rshapes _ _ _ _ _ _ H). symmetry. apply map_length.
      * pose proof (dm_rstrides _ _ _ _ _ _ H) as L. apply Forall2_len in L. congruence.
      * apply (dm_roffset _ _ _ _ _ _ H).
    + apply IH; [now exists g|]. destruct d; auto. exact (box_positive _ _ B).
Qed.
Print Assumptions C94_arrays_fit.

(** No schedule goes on for ever: threads that still have something to do cannot be
    given turns without end, and every schedule can be continued until all have
    finished. *)
Definition turn (c c' : heap * list (prog (list pyval))) : Prop :=
  exists j t, nth_error (snd c) j = Some t /\ (forall r, t <> Ret r)
    /\ c' = exec [j] (fst c) (snd c).
Lemma turn_pending c c' : turn c c' -> pending_list (snd c') (snd c).
Proof.
  intros (j & t & Ej & N & ->). cbn [exec]. rewrite Ej. destruct (advance (fst c) t) as [h' t'] eqn:E. cbn [snd].
  exists j, t, t'. split; [exact Ej|]. split; [|reflexivity].
  destruct (advance_pending t (fst c)) as [[r H]|H]; [now apply N in H|]. now rewrite E in H.
Qed.
Theorem C94_ends : well_founded (fun c' c => turn c c').
Proof.
  intros [h ts]. revert h. induction (pending_list_wf ts) as [ts _ IH]. intros h. constructor. intros [h' ts'] H.
  apply IH. apply turn_pending in H. exact H.
Qed.
Print Assumptions C94_ends.
Lemma exec_app {A} s1 : forall s2 h (ts : list (prog A)), exec (s1 ++ s2) h ts = exec s2 (fst (exec s1 h ts)) (snd (exec s1 h ts)).
Proof.
  induction s1 as [|j s1 IH]; intros s2 h ts; cbn [app exec]; [reflexivity|]. destruct (nth_error ts j); [|apply IH].
  destruct (advance h p). apply IH.
Qed.
Theorem C94_can_finish : forall sched h (programs : list (list op)),
  exists more h' rs, exec (sched ++ more) h (map thread programs) = (h', map Ret rs).
Proof.
  intros sched h programs.
  assert (G : forall c, exists more h' rs, exec more (fst c) (snd c) = (h', map (@Ret (list pyval)) rs)).
  { intros c. induction (C94_ends c) as [c _ IH].
    assert (D : (exists rs, snd c = map Ret rs) \/ exists j t, nth_error (snd c) j = Some t /\ forall r, t <> Ret r).
    { clear. induction (snd c) as [|t ts [(rs & ->)|(j & t' & H1 & H2)]].
      - left. now exists [].
      - destruct t as [r|a p k|a p v k].
        + left. now exists (r :: rs).
        + right. exists 0%nat, (Get a p k). split; [reflexivity|discriminate].
        + right. exists 0%nat, (Put a p v k). split; [reflexivity|discriminate].
      - right. exists (S j), t'. auto. }
    destruct D as [(rs & E)|(j & t & H1 & H2)].
    - exists [], (fst c), rs. cbn [exec]. now rewrite E.
    - destruct (IH (exec [j] (fst c) (snd c))) as (more & h' & rs & E); [now exists j, t|].
      exists (j :: more), h', rs. change (j :: more) with ([j] ++ more). rewrite exec_app. exact E. }
  destruct (G (exec sched h (map thread programs))) as (more & h' & rs & E). exists more, h', rs. rewrite exec_app. exact E.
Qed.
Print Assumptions C94_can_finish.

(** A Strided array and a COO array, built separately. *)
Definition two_arrays : res (storage * storage * heap) :=
  '(a, h1) <- fromobject CStrided [] (SrcSeq (VSeq [VInt 1; VInt 2; VInt 3])) fo_default ;;
  '(b, h2) <- fromobject CCOO h1 (SrcSeq (VSeq [VNone; VInt 5; VInt 6])) fo_default ;;
  Ok (a, b, h2).
Example C94_case : exists a b h,
  two_arrays = Ok (a, b, h)
  /\ let programs := [[Assign a (XItem (ISlice (Sl None None (Some (-1))))) (SrcSeq (VSeq [VInt 7; VInt 8; VInt 9])); Read a [0]];
                      [Assign b (XItem (ISlice (Sl (Some 1) None None))) (SrcSeq (VSeq [VInt 10; VInt 11])); Read b [2]]] in
     Forall (Forall op_fits) programs /\ separate programs
     /\ exists h', exec (concat (repeat [0; 1; 1]%nat 20)) h (map thread programs)
                   = (h', map Ret [Ok [VInt 9]; Ok [VInt 11]]).
Proof.
  eexists _, _, _. split; [vm_compute; reflexivity|]. cbv zeta. split; [|split].
  - repeat constructor.
  - intros [|[|j]] [|[|k]] P Q N EP EQ; try congruence; try (destruct j; discriminate); try (destruct k; discriminate);
      injection EP as <-; injection EQ as <-; intros a H; vm_compute in H |- *; intuition (subst; discriminate || lia).
  - eexists. vm_compute. reflexivity.
Qed.

(** * C95: one list, different elements *)

(** Where element [i] of a Strided array is kept: which list, and where in it. *)
Definition place (t : strided) (i : list Z) : nat * Z :=
  (baddr (sdata t), boff (sdata t) + zdot i (sstrides t)).

(** Statements on well-formed Strided arrays, also views; the value assigned is
    any list, or an array of the right shape. *)
Definition strided_op (h : heap) (o : op) : Prop :=
  match o with
  | Read (SStrided t) i => valid h (SStrided t) /\ in_box i (sshape t)
  | Assign (SStrided t) ix value =>
      valid h (SStrided t) /\ positive (sshape t) /\ ok_index ix (sshape t)
      /\ match value with
         | SrcSeq _ => True
         | SrcSto (SStrided u) => valid h (SStrided u) /\ sshape u = slice_shape ix (sshape t)
         | _ => False
         end
  | _ => False
  end.
(** The places a statement reads and those it writes. *)
Definition op_reads (o : op) (x : nat * Z) : Prop :=
  match o with
  | Read (SStrided t) i => x = place t i
  | Assign _ _ (SrcSto (SStrided u)) => exists i, in_box i (sshape u) /\ x = place u i
  | _ => False
  end.
Definition op_writes (o : op) (x : nat * Z) : Prop :=
  match o with
  | Assign (SStrided t) ix _ =>
      exists i, hit ix (sshape t) i /\ x = place t i
  | _ => False
  end.
(** No thread writes an element that another reads or writes. *)
Definition no_race (programs : list (list op)) : Prop :=
  forall j k P Q, j <> k -> nth_error programs j = Some P -> nth_error programs k = Some Q ->
  forall o o' x, In o P -> In o' Q -> op_writes o x -> ~ op_reads o' x /\ ~ op_writes o' x.

Definition by_places (ops : list op) : footprint :=
  FP (fun a p => exists o, In o ops /\ op_reads o (a, p)) (fun a p => exists o, In o ops /\ op_writes o (a, p)).

Lemma w_elem_place (R W : nat -> Z -> Prop) t i : in_box i (sshape t) -> length (sstrides t) = length (sshape t) ->
  R (fst (place t i)) (snd (place t i)) -> within R W (strided_elem_t t i).
Proof.
  intros Hi L H. unfold strided_elem_t. rewrite (normalize_ints i _ Hi). cbn [pbind].
  pose proof (Forall2_len _ _ _ Hi) as Li. rewrite is_element_ints by exact Li.
  assert (E : int_items (map NInt i) = i) by (clear; induction i; cbn; congruence). rewrite E.
  rewrite get_position_ok by assumption. cbn [pbind]. split; [exact H|]. intros v. exact I.
Qed.

Lemma valid_strides h t : valid h (SStrided t) -> length (sstrides t) = length (sshape t).
Proof. intros [f (l & _ & H & _)]. apply H. Qed.
Lemma valid_place h t i : valid h (SStrided t) -> in_box i (sshape t) -> 0 <= snd (place t i).
Proof. intros [f (l & _ & H & _)] Hi. apply (so_pos _ _ H) in Hi. unfold spos in Hi. cbn. lia. Qed.

Lemma stays_places h ops : Forall (strided_op h) ops -> stays (by_places ops) (thread ops).
Proof.
  intros HF. unfold stays. cbn [fr fw by_places].
  assert (G : forall (R W : nat -> Z -> Prop) r, Forall (strided_op h) r ->
    (forall o a p, In o r -> op_reads o (a, p) -> R a p) -> (forall o a p, In o r -> op_writes o (a, p) -> W a p) ->
    within R W (thread r)).
  { intros R W. induction r as [|o r IH]; intros F H1 H2; [exact I|]. inversion F as [|? ? Fo Fr]; subst.
    assert (I1 : within R W (thread r)).
    { apply IH; [exact Fr| |]; intros o' a p H; [apply H1|apply H2]; now right. }
    destruct o as [s i|s ix value]; cbn [thread]; cbn [strided_op] in Fo; destruct s as [|t| | | | |]; try contradiction.
    - destruct Fo as [V Hi]. apply within_bind.
      + cbn [get_elem_t]. apply w_elem_place; [exact Hi|eapply valid_strides; exact V|].
        apply (H1 (Read (SStrided t) i)); [now left|reflexivity].
      + intros x. apply within_bind; [exact I1|]. intros xs. exact I.
    - destruct Fo as (V & Hp & Hok & Hv). apply within_bind; [|intros _; exact I1]. cbn [setitem_t].
      pose proof (valid_strides _ _ V) as L.
      destruct (index_strided_full ix (sshape t) (sstrides t) 0 Hp Hok L) as (nix & st & off & E1 & E2 & E3 & E4).
      rewrite E1. cbn [bind]. rewrite E2. cbn [pbind]. apply w_for. intros j Hj. apply In_cart in Hj.
      rewrite get_position_ok; [|exact (Forall2_len _ _ _ Hj)|exact E3]. cbn [pbind]. apply within_bind.
      + destruct value as [v|u]; [exact I|]. destruct u as [|u| | | | |]; try contradiction. destruct Hv as [Vu Su].
        cbn [fst get_value_t]. destruct j as [|y j]; [exact I|]. cbn [get_elem_t]. apply w_elem_place; [now rewrite Su|eapply valid_strides; exact Vu|].
        apply (H1 (Assign (SStrided t) ix (SrcSto (SStrided u)))); [now left|]. cbn [op_reads]. exists (y :: j). rewrite Su. now split.
      + intros x. split; [|exact I]. apply (H2 (Assign (SStrided t) ix value)); [now left|]. cbn [op_writes].
        destruct (E4 j Hj) as [B1 B2]. exists (source_index ix (sshape t) j). split; [now exists j|].
        unfold place. cbn [fst snd]. f_equal. lia. }
  apply G; [exact HF| |]; eauto.
Qed.

Lemma strided_op_fits h o : strided_op h o -> op_fits o.
Proof.
  destruct o as [s i|s ix value]; cbn [strided_op op_fits]; destruct s as [|t| | | | |]; try contradiction.
  - intros [V Hi]. split; [eapply valid_strides; exact V|]. exact (Forall2_len _ _ _ Hi).
  - intros (V & _ & _ & Hv). split; [eapply valid_strides; exact V|]. destruct value as [v|u]; [exact I|].
    destruct u as [|u| | | | |]; try contradiction. destruct Hv as [Vu Su]. split; [eapply valid_strides; exact Vu|]. cbn. now rewrite Su.
Qed.

Lemma hit_box ix sh i : positive sh -> ok_index ix sh -> hit ix sh i -> in_box i sh.
Proof.
  intros Hp Hok (j & Hj & <-). destruct (index_strided_full ix sh (map (fun _ => 1) sh) 0 Hp Hok) as (nix & st & off & _ & _ & _ & E); [apply map_length|].
  now apply E.
Qed.

Lemma writes_nonneg h o a p : strided_op h o -> op_writes o (a, p) -> 0 <= p.
Proof.
  destruct o as [s i|s ix value]; cbn [strided_op op_writes]; [contradiction|]. destruct s as [|t| | | | |]; try contradiction.
  intros (V & Hp & Hok & _) (i & Hi & E). apply hit_box in Hi; [|assumption..]. apply (valid_place _ _ _ V) in Hi. now rewrite <- E in Hi.
Qed.
Lemma reads_nonneg h o a p : strided_op h o -> op_reads o (a, p) -> 0 <= p.
Proof.
  destruct o as [s i|s ix value]; cbn [strided_op op_reads]; destruct s as [|t| | | | |]; try contradiction.
  - intros (V & Hi) E. apply (valid_place _ _ _ V) in Hi. now rewrite <- E in Hi.
  - destruct value as [v|u]; [contradiction|]. destruct u as [|u| | | | |]; try contradiction.
    intros (_ & _ & _ & V & _) (i & Hi & E). apply (valid_place _ _ _ V) in Hi. now rewrite <- E in Hi.
Qed.

(** Threads that use one list together, through any Strided arrays and views of
    it, but no element in common that is written: the same as C94. *)
Theorem C95_shared_list : forall programs h sched h' rs,
  Forall (Forall (strided_op h)) programs -> no_race programs ->
  exec sched h (map thread programs) = (h', map Ret rs) ->
  h' = perform_all h programs /\ rs = map (fun ops => snd (perform h ops)) programs.
Proof.
  intros programs h sched h' rs F S H. apply (together programs (map by_places programs) h sched); [| | |exact H].
  - eapply Forall_impl; [|exact F]. intros P HP. eapply Forall_impl; [|exact HP]. intros o. apply strided_op_fits.
  - clear S H. induction F as [|P programs HP _ IH]; constructor; [eapply stays_places; exact HP|exact IH].
  - intros j k f g N Ef Eg. rewrite nth_error_map in Ef, Eg.
    destruct (nth_error programs j) as [P|] eqn:Ej; [|discriminate]. destruct (nth_error programs k) as [Q|] eqn:Ek; [|discriminate].
    injection Ef as <-. injection Eg as <-. intros a p b q (o & Ho & Hw) H2. cbn [fr fw by_places] in *.
    rewrite Forall_forall in F. pose proof (F P (nth_error_In _ _ Ej)) as FP. pose proof (F Q (nth_error_In _ _ Ek)) as FQ.
    rewrite Forall_forall in FP, FQ. pose proof (writes_nonneg h o a p (FP _ Ho) Hw) as Np.
    destruct (Nat.eq_dec a b) as [<-|Nab]; [|now left]. right.
    assert (Nq : 0 <= q). { destruct H2 as [(o' & Ho' & X)|(o' & Ho' & X)]; [apply (reads_nonneg h o' a q)|apply (writes_nonneg h o' a q)]; auto. }
    unfold norm. destruct (Z.ltb_spec p 0); [lia|]. destruct (Z.ltb_spec q 0); [lia|]. intros ->.
    destruct H2 as [(o' & Ho' & X)|(o' & Ho' & X)]; now apply (S j k P Q N Ej Ek o o' (a, q) Ho Ho' Hw) in X.
Qed.
Print Assumptions C95_shared_list.

(** Two threads fill the two halves of one array, one of them from the other end
    of a view. *)
Definition whole : strided := Str [4] [1] (Buf 4 0 0 VNone).
Definition right_half : strided := Str [2] [1] (Buf 2 2 0 VNone).
Definition one_list : heap := [map VInt [1; 2; 3; 4]].
Lemma one_axis t n : sshape t = [n] -> 0 <= n -> sstrides t = [1] -> baddr (sdata t) = 0%nat -> bsize (sdata t) = n ->
  0 <= boff (sdata t) -> boff (sdata t) + n <= 4 -> valid one_list (SStrided t).
Proof.
  intros E0 E1 E2 E3 E4 E5 E6. exists (fun i => nth (Z.to_nat (spos t i)) (map VInt [1; 2; 3; 4]) VNone).
  exists (map VInt [1; 2; 3; 4]). rewrite E3. split; [reflexivity|]. split; [|reflexivity].
  assert (B : forall i, in_box i [n] -> exists x, i = [x] /\ 0 <= x < n).
  { intros i H. inversion H as [|x m i' sh Hx Hi]; subst. inversion Hi; subst. eauto. }
  constructor; rewrite ?E0, ?E2, ?E4.
  - constructor; [exact E1|constructor].
  - reflexivity.
  - exact E5.
  - cbn. lia.
  - exact E1.
  - intros i H. apply B in H as (x & -> & Hx). unfold spos. rewrite E2. cbn. lia.
  - intros i j H1 H2. apply B in H1 as (x & -> & Hx). apply B in H2 as (y & -> & Hy). unfold spos. rewrite E2. cbn. intros. f_equal. lia.
Qed.

Example C95_case :
  (fromobject CStrided [] (SrcSeq (VSeq (map VInt [1; 2; 3; 4]))) fo_default = Ok (SStrided whole, one_list)
   /\ getitem one_list (SStrided whole) (XItem (ISlice (Sl (Some 2) None None))) = Ok (ISto (SStrided right_half), one_list))
  /\ let programs := [[Assign (SStrided whole) (XItem (ISlice (Sl (Some 0) (Some 2) None))) (SrcSeq (VSeq [VInt 7; VInt 8]))];
                      [Assign (SStrided right_half) (XItem (ISlice (Sl None None (Some (-1))))) (SrcSeq (VSeq [VInt 9; VInt 10]));
                       Read (SStrided right_half) [0]]] in
     Forall (Forall (strided_op one_list)) programs /\ no_race programs
     /\ exec [0; 1; 1; 0; 1]%nat one_list (map thread programs)
        = ([map VInt [7; 8; 10; 9]], map Ret [Ok []; Ok [VInt 10]]).
Proof.
  split; [split; vm_compute; reflexivity|]. cbv zeta.
  assert (V1 : valid one_list (SStrided whole)) by (apply (one_axis whole 4); cbn; reflexivity || lia).
  assert (V2 : valid one_list (SStrided right_half)) by (apply (one_axis right_half 2); cbn; reflexivity || lia).
  split; [|split].
  - assert (P : forall n, 0 < n -> positive [n]) by (intros; constructor; [assumption|constructor]).
    assert (O : forall n s, sp_step s <> 0 -> ok_index (XItem (ISlice s)) [n]).
    { intros n s H. split; [constructor; [exact H|constructor]|]. right. cbn. lia. }
    constructor; [|constructor; [|constructor]].
    + constructor; [|constructor]. split; [exact V1|]. split; [apply P; lia|]. split; [apply O; discriminate|exact I].
    + constructor; [|constructor; [|constructor]].
      * split; [exact V2|]. split; [apply P; lia|]. split; [apply O; discriminate|exact I].
      * split; [exact V2|]. constructor; [lia|constructor].
  - assert (B : forall ix n i m, slice_shape ix [n] = [m] -> hit ix [n] i -> exists x, 0 <= x < m /\ i = source_index ix [n] [x]).
    { intros ix n i m E (j & Hj & <-). rewrite E in Hj. inversion Hj as [|x ? i' sh Hx Hi]; subst. inversion Hi; subst. eauto. }
    assert (A : forall i, hit (XItem (ISlice (Sl (Some 0) (Some 2) None))) [4] i -> i = [0] \/ i = [1]).
    { intros i H. apply (B _ _ _ 2) in H as (x & Hx & ->); [|reflexivity]. assert (x = 0 \/ x = 1) as [->| ->] by lia; vm_compute; auto. }
    assert (C : forall i, hit (XItem (ISlice (Sl None None (Some (-1))))) [2] i -> i = [0] \/ i = [1]).
    { intros i H. apply (B _ _ _ 2) in H as (x & Hx & ->); [|reflexivity]. assert (x = 0 \/ x = 1) as [->| ->] by lia; vm_compute; auto. }
    intros [|[|j]] [|[|k]] P Q N EP EQ; try congruence; try (destruct j; discriminate); try (destruct k; discriminate);
      injection EP as <-; injection EQ as <-; intros o o' x Ho Ho' Hw; cbn [In] in Ho, Ho'.
    + destruct Ho as [<-|[]]. destruct Hw as (i & Hi & ->). apply A in Hi. destruct Ho' as [<-|[<-|[]]].
      * split; [intros []|]. intros (i' & Hi' & E). apply C in Hi'. destruct Hi as [->| ->], Hi' as [->| ->]; discriminate.
      * split; [|intros []]. cbn [op_reads]. destruct Hi as [->| ->]; discriminate.
    + destruct Ho' as [<-|[]]. split; [intros []|]. destruct Ho as [<-|[<-|[]]]; [|destruct Hw].
      destruct Hw as (i & Hi & ->). apply C in Hi. intros (i' & Hi' & E). apply A in Hi'. destruct Hi as [->| ->], Hi' as [->| ->]; discriminate.
  - vm_compute. reflexivity.
Qed.

(** * C96: the same elements from several threads *)

(** Each thread assigns one list to a slice of a Strided array. *)
Definition writer := (strided * pyindex * pyval)%type.
Definition writer_ok (h : heap) (w : writer) : Prop :=
  let '(t, ix, v) := w in
  valid h (SStrided t) /\ positive (sshape t) /\ ok_index ix (sshape t) /\ regular (slice_shape ix (sshape t)) v.
Definition writer_thread (w : writer) : prog (list pyval) :=
  let '(t, ix, v) := w in thread [Assign (SStrided t) ix (SrcSeq v)].
(** The thread assigns [x] to the place. *)
Definition assigns (w : writer) (q : nat * Z) (x : pyval) : Prop :=
  let '(t, ix, v) := w in
  exists j, in_box j (slice_shape ix (sshape t)) /\ place t (source_index ix (sshape t) j) = q /\ nested_at v j = Some x.

Fixpoint puts (l : list (nat * Z * pyval)) : prog (list pyval) :=
  match l with [] => Ret (Ok []) | (a, p, v) :: r => Put a p v (puts r) end.

(** Every write is to an existing element. *)
Definition in_heap (h : heap) (w : nat * Z * pyval) : Prop := 0 <= snd (fst w) < sizes h (fst (fst w)).

Lemma hput_in h a p v : 0 <= p < sizes h a -> exists h', hput h a p v = Ok h'.
Proof.
  unfold sizes. destruct (nth_error h a) as [l|] eqn:E; [|lia]. intros H. eexists. apply hput_of; [exact E|].
  unfold norm. destruct (Z.ltb_spec p 0); lia.
Qed.
Lemma hget_same h a p v h' : 0 <= p -> hput h a p v = Ok h' -> hget h' a p = Ok v.
Proof.
  intros Hp H. apply hput_ok in H as (l & E & R & ->). unfold hget, cell. rewrite set_nth_nth, Nat.eqb_refl, E. cbn [bind].
  rewrite pyget_norm, set_nth_zlen. destruct (Z.ltb_spec (norm (zlen l) p) 0); [lia|].
  rewrite set_nth_nth, Nat.eqb_refl. destruct (nth_error l (Z.to_nat (norm (zlen l) p))) eqn:X; [reflexivity|].
  apply nth_error_None in X. unfold zlen in *. lia.
Qed.

(** A thread that has done the writes [fst P] and has still to do [snd P].  An
    element holds a value written to it, or its old value if there is none. *)
Definition progress := (list (nat * Z * pyval) * list (nat * Z * pyval))%type.
Definition last_write (h0 h : heap) (Ps : list progress) : Prop :=
  forall a p, 0 <= p ->
    (hget h a p = hget h0 a p /\ forall P v, In P Ps -> ~ In (a, p, v) (fst P))
    \/ exists P v, In P Ps /\ In (a, p, v) (fst P) /\ hget h a p = Ok v.

Lemma in_set_nth {X} (l : list X) : forall n x y, In y (set_nth n x l) -> y = x \/ exists m, m <> n /\ nth_error l m = Some y.
Proof.
  intros n x y H. apply In_nth_error in H as (m & H). rewrite set_nth_nth in H. destruct (Nat.eqb_spec n m) as [->|N].
  - left. destruct (nth_error l m); congruence.
  - right. exists m. split; [congruence|exact H].
Qed.

Lemma exec_puts : forall sched h0 h Ps h' ts',
  (forall a, sizes h a = sizes h0 a) -> Forall (fun P => Forall (in_heap h0) (snd P)) Ps -> last_write h0 h Ps ->
  exec sched h (map (fun P => puts (snd P)) Ps) = (h', ts') ->
  exists Ps', ts' = map (fun P => puts (snd P)) Ps' /\ last_write h0 h' Ps' /\ (forall a, sizes h' a = sizes h0 a)
    /\ map (fun P => fst P ++ snd P) Ps' = map (fun P => fst P ++ snd P) Ps.
Proof.
  induction sched as [|j sched IH]; intros h0 h Ps h' ts' HS HF HI H; cbn [exec] in H.
  - injection H as <- <-. exists Ps. auto.
  - rewrite nth_error_map in H. destruct (nth_error Ps j) as [[D L]|] eqn:Ej; cbn [option_map snd] in H; [|eapply IH; eassumption].
    destruct L as [|[[a p] v] L].
    + cbn [puts advance] in H. rewrite set_nth_self in H; [eapply IH; eassumption|]. rewrite nth_error_map, Ej. reflexivity.
    + assert (HL : Forall (in_heap h0) ((a, p, v) :: L)).
      { rewrite Forall_forall in HF. exact (HF _ (nth_error_In _ _ Ej)). }
      inversion HL as [|? ? Hw HLr]; subst. unfold in_heap in Hw. cbn [fst snd] in Hw.
      cbn [puts advance] in H. destruct (hput_in h a p v) as (h1 & E1); [now rewrite HS|]. rewrite E1 in H.
      set (P1 := (D ++ [(a, p, v)], L)).
      assert (Em : forall (F : progress -> prog (list pyval)) k l x, set_nth k (F x) (map F l) = map F (set_nth k x l)).
      { clear. intros F k l x. revert k. induction l as [|y l IH]; intros [|k]; cbn; try reflexivity. f_equal. apply IH. }
      change (puts L) with ((fun P : progress => puts (snd P)) P1) in H. rewrite Em in H.
      apply IH with (h0 := h0) in H as (Ps' & X1 & X2 & X4 & X3).
      * exists Ps'. split; [exact X1|]. split; [exact X2|]. split; [exact X4|]. rewrite X3. clear - Ej. revert j Ej.
        induction Ps as [|P Ps IH]; intros [|j] Ej; cbn in *; try discriminate.
        -- injection Ej as ->. cbn. f_equal. now rewrite <- app_assoc.
        -- f_equal. now apply IH.
      * intros b. rewrite (hput_sizes _ _ _ _ _ E1). apply HS.
      * rewrite Forall_forall in *. intros Q HQ. apply in_set_nth in HQ as [->|(m & _ & HQ)].
        -- rewrite <- Forall_forall in *. exact HLr.
        -- apply HF. eapply nth_error_In. exact HQ.
      * assert (Hj : nth_error (set_nth j P1 Ps) j = Some P1) by (rewrite set_nth_nth, Nat.eqb_refl, Ej; reflexivity).
        assert (Ho : forall m Q, m <> j -> nth_error Ps m = Some Q -> nth_error (set_nth j P1 Ps) m = Some Q).
        { intros m Q N E. rewrite set_nth_nth. destruct (Nat.eqb_spec j m); [congruence|exact E]. }
        intros b q Hq. destruct (Nat.eq_dec a b) as [<-|N]; [destruct (Z.eq_dec p q) as [<-|N]|].
        -- right. exists P1, v. split; [eapply nth_error_In; exact Hj|]. split; [apply in_or_app; right; now left|].
           eapply hget_same; [exact Hq|exact E1].
        -- assert (Ex : hget h1 a q = hget h a q).
           { eapply hget_other; [exact E1|]. right. unfold norm. destruct (Z.ltb_spec p 0), (Z.ltb_spec q 0); lia. }
           rewrite Ex. destruct (HI a q Hq) as [[U1 U2]|(Q & w & U1 & U2 & U3)].
           ++ left. split; [exact U1|]. intros Q w HQ. apply in_set_nth in HQ as [->|(m & _ & HQ)].
              ** cbn [fst P1]. intros X. apply in_app_or in X as [X|[X|[]]]; [|exfalso; inversion X; subst; congruence]. apply (U2 (D, (a, p, v) :: L) w (nth_error_In _ _ Ej) X).
              ** apply U2. eapply nth_error_In. exact HQ.
           ++ right. apply In_nth_error in U1 as (m & Em'). destruct (Nat.eq_dec m j) as [->|Nm].
              ** exists P1, w. pose proof (eq_trans (eq_sym Ej) Em') as EQ. injection EQ as <-. cbn [fst] in U2. split; [eapply nth_error_In; exact Hj|].
                 split; [apply in_or_app; now left|exact U3].
              ** exists Q, w. split; [eapply nth_error_In; now apply (Ho m)|]. now split.
        -- assert (Ex : hget h1 b q = hget h b q) by (eapply hget_other; [exact E1|now left]).
           rewrite Ex. destruct (HI b q Hq) as [[U1 U2]|(Q & w & U1 & U2 & U3)].
           ++ left. split; [exact U1|]. intros Q w HQ. apply in_set_nth in HQ as [->|(m & _ & HQ)].
              ** cbn [fst P1]. intros X. apply in_app_or in X as [X|[X|[]]]; [|exfalso; inversion X; subst; congruence]. apply (U2 (D, (a, p, v) :: L) w (nth_error_In _ _ Ej) X).
              ** apply U2. eapply nth_error_In. exact HQ.
           ++ right. apply In_nth_error in U1 as (m & Em'). destruct (Nat.eq_dec m j) as [->|Nm].
              ** exists P1, w. pose proof (eq_trans (eq_sym Ej) Em') as EQ. injection EQ as <-. cbn [fst] in U2. split; [eapply nth_error_In; exact Hj|].
                 split; [apply in_or_app; now left|exact U3].
              ** exists Q, w. split; [eapply nth_error_In; now apply (Ho m)|]. now split.
Qed.

Lemma regular_at sh : forall v j, regular sh v -> in_box j sh -> exists x, nested_at v j = Some x.
Proof.
  induction sh as [|n sh IH]; intros v j R B; inversion B as [|x ? j' ? Hx Hj]; subst; cbn [nested_at]; [eauto|].
  cbn [regular] in R. destruct v; try contradiction. destruct R as (R1 & _ & R2). replace (x <? 0) with false by lia.
  destruct (nth_error l (Z.to_nat x)) as [w|] eqn:E; [|apply nth_error_None in E; unfold zlen in R1; lia].
  rewrite Forall_forall in R2. apply (IH w); [apply R2; eapply nth_error_In; exact E|exact Hj].
Qed.

Lemma writer_puts h w : writer_ok h w ->
  exists L, writer_thread w = puts L /\ Forall (in_heap h) L /\ forall a p v, In (a, p, v) L <-> assigns w (a, p) v.
Proof.
  destruct w as [[t ix] v]. intros (V & P & O & R). cbn [writer_thread assigns].
  assert (HS : length (sstrides t) = length (sshape t) /\ forall i, in_box i (sshape t) -> 0 <= spos t i < sizes h (baddr (sdata t))).
  { destruct V as (f & l & E & S & _). split; [apply (so_strides _ _ S)|]. intros i Hi. unfold sizes. rewrite E.
    pose proof (so_pos _ _ S i Hi). pose proof (so_end _ _ S). lia. }
  destruct HS as [HS HB].
  destruct (index_strided_full ix (sshape t) (sstrides t) 0 P O HS) as (nix & st & off & E1 & E2 & E3 & E4).
  cbn [thread setitem_t]. rewrite E1. cbn [bind]. rewrite E2. cbn [pbind]. unfold strided_slice_gen_t.
  set (sh := slice_shape ix (sshape t)) in *.
  set (W := fun j => (baddr (sdata t), boff (sdata t) + (off + zdot j st), match nested_at v j with Some x => x | None => VNone end)).
  exists (map W (cart sh)). split.
  - assert (G : forall l, (forall j, In j l -> in_box j sh) ->
      pbind (for_t l (fun j => p <~ Ret (get_position j sh st) ;; put_t (buf_write_t (sdata t)) (SrcSeq v) (j, off + p)))
        (fun _ => thread []) = puts (map W l)).
    { induction l as [|j l IH]; intros Hl; [reflexivity|]. cbn [for_t map puts]. pose proof (Hl j (or_introl eq_refl)) as Hj.
      rewrite get_position_ok; [|apply (Forall2_len _ _ _ Hj)|exact E3].
      destruct (regular_at sh v j R Hj) as (x & Ex). cbn [pbind]. unfold put_t. cbn [fst snd get_value_t].
      rewrite (nested_at_get _ _ _ Ex). cbn [pbind buf_write_t]. unfold W at 1. rewrite Ex. f_equal. apply IH. intros j' Hj'. apply Hl. now right. }
    apply G. intros j. apply In_cart.
  - split.
    + apply Forall_forall. intros [[a p] x] Hw. apply in_map_iff in Hw as (j & Ew & Hj). apply In_cart in Hj.
      injection Ew as <- <- <-. unfold in_heap. cbn [fst snd]. destruct (E4 j Hj) as [E5 E6]. rewrite E6.
      specialize (HB _ E5). unfold spos in HB. lia.
    + intros a p x. rewrite in_map_iff. split.
      * intros (j & Ew & Hj). apply In_cart in Hj. exists j. split; [exact Hj|]. destruct (E4 j Hj) as [_ E6].
        injection Ew as <- <- Ex. destruct (regular_at sh v j R Hj) as (y & Ey). rewrite Ey in *. unfold place. rewrite E6. split; [reflexivity|congruence].
      * intros (j & Hj & Hp & Ex). exists j. split; [|now apply In_cart]. unfold W. rewrite Ex. destruct (E4 j Hj) as [_ E6]. rewrite E6.
        unfold place in Hp. injection Hp as <- <-. reflexivity.
Qed.

Lemma hget_elem h t i : valid h (SStrided t) -> in_box i (sshape t) ->
  get_elem h (SStrided t) i = hget h (fst (place t i)) (snd (place t i)).
Proof.
  intros (f & Hf) Hi. rewrite (repr_get _ _ _ _ Hf Hi). destruct Hf as (l & E & S & Hv). unfold hget, cell, place. cbn [fst snd]. rewrite E. cbn [bind].
  pose proof (so_pos _ _ S i Hi) as Hp. pose proof (so_end _ _ S) as He. fold (spos t i). rewrite (pyget_ok l _ VNone) by lia. f_equal. now apply Hv.
Qed.
Lemma valid_sizes h h' t : (forall a, sizes h' a = sizes h a) -> positive (sshape t) -> valid h (SStrided t) -> valid h' (SStrided t).
Proof.
  intros HS P (f & l & E & S & Hv). exists (fun i => nth (Z.to_nat (spos t i)) (nth (baddr (sdata t)) h' []) VNone).
  specialize (HS (baddr (sdata t))). unfold sizes in HS. rewrite E in HS.
  assert (exists l', nth_error h' (baddr (sdata t)) = Some l' /\ zlen l' = zlen l) as (l' & E' & Z').
  { destruct (nth_error h' (baddr (sdata t))) as [l'|]; [eauto|]. exfalso.
    assert (B : in_box (map (fun _ => 0) (sshape t)) (sshape t)).
    { unfold in_box, positive in *. clear - P. induction P; cbn; constructor; [lia|assumption]. }
    pose proof (so_pos _ _ S _ B). pose proof (so_end _ _ S). lia. }
  exists l'. split; [exact E'|]. split; [|now rewrite (nth_error_nth _ _ _ E')].
  destruct S as [S1 S2 S3 S4 S5 S6 S7]. constructor; auto. lia.
Qed.

(** Whatever the schedule, when all threads have ended none has failed, and every
    element of every array (also of views, and of arrays the threads do not
    mention) holds a value that some thread assigned to it, or its old value
    when no thread assigned to it. *)
Theorem C96_each_element_partial : forall ws h sched h' rs,
  Forall (writer_ok h) ws ->
  exec sched h (map writer_thread ws) = (h', map Ret rs) ->
  Forall (fun r => r = Ok []) rs
  /\ forall t i, valid h (SStrided t) -> positive (sshape t) -> in_box i (sshape t) ->
       (exists w x, In w ws /\ assigns w (place t i) x /\ get_elem h' (SStrided t) i = Ok x)
       \/ (forall w x, In w ws -> ~ assigns w (place t i) x)
          /\ get_elem h' (SStrided t) i = get_elem h (SStrided t) i.
Proof.
  intros ws h sched h' rs F H.
  assert (exists Ls, Forall2 (fun w L => writer_thread w = puts L /\ Forall (in_heap h) L
    /\ forall a p v, In (a, p, v) L <-> assigns w (a, p) v) ws Ls) as (Ls & HL).
  { clear H. induction F as [|w ws Hw _ (Ls & IH)]; [exists []; constructor|]. destruct (writer_puts h w Hw) as (L & X). exists (L :: Ls). now constructor. }
  assert (ET : map writer_thread ws = map (fun P : progress => puts (snd P)) (map (fun L => ([], L)) Ls)).
  { clear H F. induction HL as [|w L ws Ls (X & _) _ IH]; [reflexivity|]. cbn. now rewrite X, IH. }
  rewrite ET in H. apply (exec_puts sched h h) in H as (Ps & E1 & E2 & E3 & E4); [|reflexivity| |].
  - rewrite map_map in E4. cbn [fst snd app] in E4. rewrite map_id in E4.
    assert (ES : Forall (fun P => snd P = []) Ps /\ Forall (fun r => r = Ok []) rs).
    { clear - E1. revert rs E1. induction Ps as [|[D L] Ps IH]; intros [|r rs] E; cbn in E; try discriminate; [split; constructor|].
      injection E as X E. destruct (IH _ E) as [Y1 Y2]. destruct L as [|[[a p] v] L]; cbn in X; [|discriminate].
      split; constructor; auto. congruence. }
    destruct ES as [ES ER]. split; [exact ER|].
    assert (EF : map fst Ps = Ls).
    { rewrite <- E4. apply map_ext_in. intros P HP. rewrite Forall_forall in ES. rewrite (ES P HP). now rewrite app_nil_r. }
    intros t i V Pp Hi. pose proof (valid_sizes h h' t E3 Pp V) as V'. rewrite (hget_elem h' t i V' Hi), (hget_elem h t i V Hi).
    assert (Hp : 0 <= snd (place t i)).
    { destruct V as (f & l & El & S & _). pose proof (so_pos _ _ S i Hi). unfold spos in *. cbn. lia. }
    destruct (place t i) as [a p]. cbn [fst snd] in *. destruct (E2 a p Hp) as [[U1 U2]|(P & x & U1 & U2 & U3)].
    + right. split; [|exact U1]. intros w x Hw Ha. clear - HL Hw Ha U2 EF. apply In_nth_error in Hw as (n & Hw).
      destruct (nth_error Ls n) as [L|] eqn:EL.
      * destruct (Forall2_nth _ _ _ HL n L EL) as (w' & Ew & _ & _ & Y). assert (w' = w) as -> by congruence. apply Y in Ha. rewrite <- EF, nth_error_map in EL.
        destruct (nth_error Ps n) as [P|] eqn:EP; [|discriminate]. injection EL as <-. exact (U2 P x (nth_error_In _ _ EP) Ha).
      * apply nth_error_None in EL. rewrite <- (Forall2_len _ _ _ HL) in EL. apply nth_error_None in EL. congruence.
    + left. apply (in_map fst) in U1. rewrite EF in U1. apply In_nth_error in U1 as (n & EL).
      destruct (Forall2_nth _ _ _ HL n _ EL) as (w & Ew & _ & _ & Y). exists w, x. split; [eapply nth_error_In; exact Ew|]. split; [now apply Y|exact U3].
  - clear - HL. induction HL as [|w L ws Ls (_ & X & _) _ IH]; constructor; [exact X|exact IH].
  - intros a p _. left. split; [reflexivity|]. intros P v HP. apply in_map_iff in HP as (L & <- & _). cbn. auto.
Qed.
Print Assumptions C96_each_element_partial.

(** A whole assignment is not atomic: two threads that assign to all elements of
    one array can leave a mixture that neither order of the two gives. *)
Definition fill (x : Z) : list op := [Assign (SStrided whole) (XItem (ISlice (Sl None None None))) (SrcSeq (VSeq (map VInt [x; x; x; x])))].
Theorem C96_atomic_refuted :
  exists sched h', exec sched one_list (map thread [fill 7; fill 8]) = (h', map Ret [Ok []; Ok []])
    /\ h' <> perform_all one_list [fill 7; fill 8] /\ h' <> perform_all one_list [fill 8; fill 7].
Proof.
  exists [0; 1; 1; 0; 0; 1; 1; 0]%nat, [map VInt [8; 7; 8; 7]].
  split; [vm_compute; reflexivity|]. split; vm_compute; discriminate.
Qed.
Print Assumptions C96_atomic_refuted.

(** The hypotheses hold for those two threads and a third one that writes
    through a view. *)
Example C96_case :
  let ws := [(whole, XItem (ISlice (Sl None None None)), VSeq (map VInt [7; 7; 7; 7])); (whole, XItem (ISlice (Sl None None None)), VSeq (map VInt [8; 8; 8; 8]));
             (right_half, XItem (ISlice (Sl (Some 1) None None)), VSeq [VInt 9])] in
  Forall (writer_ok one_list) ws
  /\ exec [0; 1; 1; 0; 0; 1; 1; 0; 2]%nat one_list (map writer_thread ws) = ([map VInt [8; 7; 8; 9]], map Ret [Ok []; Ok []; Ok []])
  /\ assigns (right_half, XItem (ISlice (Sl (Some 1) None None)), VSeq [VInt 9]) (place whole [3]) (VInt 9).
Proof.
  assert (V1 : valid one_list (SStrided whole)) by (apply (one_axis whole 4); cbn; reflexivity || lia).
  assert (V2 : valid one_list (SStrided right_half)) by (apply (one_axis right_half 2); cbn; reflexivity || lia).
  assert (P : forall n, 0 < n -> positive [n]) by (intros; constructor; [assumption|constructor]).
  assert (O : forall n s, sp_step s <> 0 -> ok_index (XItem (ISlice s)) [n]).
  { intros n s H. split; [constructor; [exact H|constructor]|]. right. cbn. lia. }
  assert (R : forall l n, zlen l = n -> Forall (regular []) l -> regular [n] (VSeq l)) by (intros l n E F; repeat split; assumption).
  cbv zeta. split; [|split].
  - repeat (constructor; [split; [assumption|split; [apply P; cbn; lia|split; [apply O; discriminate|]]]|]); [| | |constructor];
      (apply R; [reflexivity|repeat constructor]).
  - vm_compute. reflexivity.
  - exists [0]. split; [change (in_box [0] [1]); constructor; [lia|constructor]|]. split; vm_compute; reflexivity.
Qed.

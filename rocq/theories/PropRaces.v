(** C97: threads that read elements other threads are assigning to. *)
From Verif Require Import Py SliceTools Basics Storage Spec SliceFacts IndexFacts SolverFacts Repr ReprFacts
  CompressFacts ReduceFacts MapFacts WriteFacts Threads ThreadFacts PropThreads.

(** Statements on well-formed Strided arrays, also views: reads of elements, and
    assignments of lists of the right shape. *)
Definition racing_op (h : heap) (o : op) : Prop :=
  match o with
  | Read (SStrided t) i => valid h (SStrided t) /\ in_box i (sshape t)
  | Assign (SStrided t) ix (SrcSeq v) => writer_ok h (t, ix, v)
  | _ => False
  end.
(** The statement assigns [x] to the place. *)
Definition op_assigns (o : op) (q : nat * Z) (x : pyval) : Prop :=
  match o with
  | Assign (SStrided t) ix (SrcSeq v) => assigns (t, ix, v) q x
  | _ => False
  end.
(** Some statement of some thread does. *)
Definition assigned (programs : list (list op)) (q : nat * Z) (x : pyval) : Prop :=
  exists ops o, In ops programs /\ In o ops /\ op_assigns o q x.

(** What a thread has read, one value for each read, in order: the value [x] read
    from element [i] of [t] satisfies [P t i x]. *)
Fixpoint reads_satisfy (P : strided -> list Z -> pyval -> Prop) (ops : list op) (xs : list pyval) : Prop :=
  match ops with
  | [] => xs = []
  | Read (SStrided t) i :: r => match xs with [] => False | x :: xs' => P t i x /\ reads_satisfy P r xs' end
  | Read _ _ :: _ => False
  | Assign _ _ _ :: r => reads_satisfy P r xs
  end.

(** All reads are of elements in range, whatever allowed value is found there the
    result satisfies [Q], and all writes are of allowed values. *)
Fixpoint allowed {A} (n : nat -> Z) (V : nat -> Z -> pyval -> Prop) (Q : res A -> Prop) (m : prog A) : Prop :=
  match m with
  | Ret r => Q r
  | Get a p k => 0 <= p < n a /\ forall v, V a p v -> allowed n V Q (k v)
  | Put a p v k => 0 <= p < n a /\ V a p v /\ allowed n V Q k
  end.
Lemma allowed_bind {A B} n V (Q : res A -> Prop) (Q' : res B -> Prop) (f : A -> prog B) :
  (forall x, Q (Ok x) -> allowed n V Q' (f x)) -> (forall e, Q (Raise e) -> Q' (Raise e)) ->
  forall m, allowed n V Q m -> allowed n V Q' (pbind m f).
Proof.
  intros H1 H2. induction m as [[x|e]|a p k IH|a p v k IH]; cbn [allowed pbind]; [apply H1|apply H2| |].
  - intros [H3 H4]. split; [exact H3|]. intros v Hv. apply IH. now apply H4.
  - intros (H3 & H4 & H5). split; [exact H3|]. split; [exact H4|]. now apply IH.
Qed.

Definition heap_in (n : nat -> Z) (V : nat -> Z -> pyval -> Prop) (h : heap) : Prop :=
  (forall a, sizes h a = n a) /\ forall a p x, 0 <= p < n a -> hget h a p = Ok x -> V a p x.

Lemma hget_in h a p : 0 <= p < sizes h a -> exists x, hget h a p = Ok x.
Proof.
  unfold sizes, hget, cell. destruct (nth_error h a) as [l|]; [|lia]. intros H. cbn [bind]. eexists. apply (pyget_ok l p VNone). exact H.
Qed.
Lemma hput_heap_in n V h a p v h' : heap_in n V h -> 0 <= p -> V a p v -> hput h a p v = Ok h' -> heap_in n V h'.
Proof.
  intros [S H] Hp Hv E. split; [intros b; rewrite (hput_sizes _ _ _ _ _ E); apply S|]. intros b q x Hq Ex.
  destruct (Nat.eq_dec a b) as [<-|N]; [destruct (Z.eq_dec p q) as [<-|N]|].
  - rewrite (hget_same _ _ _ _ _ Hp E) in Ex. now injection Ex as <-.
  - rewrite (hget_other _ _ _ _ _ a q E) in Ex; [now apply (H a q)|]. right. unfold norm. destruct (Z.ltb_spec p 0), (Z.ltb_spec q 0); lia.
  - rewrite (hget_other _ _ _ _ _ b q E) in Ex; [now apply (H b q)|now left].
Qed.
Lemma advance_allowed {A} n V (Q : res A -> Prop) h m h' m' : heap_in n V h -> allowed n V Q m -> advance h m = (h', m') ->
  heap_in n V h' /\ allowed n V Q m'.
Proof.
  intros Hh Hm E. destruct m as [r|a p k|a p v k]; cbn [advance allowed] in *.
  - now injection E as <- <-.
  - destruct Hm as [H1 H2]. destruct (hget_in h a p) as (x & Ex); [now rewrite (proj1 Hh)|]. rewrite Ex in E. injection E as <- <-.
    split; [exact Hh|]. apply H2. now apply (proj2 Hh a p x).
  - destruct Hm as (H1 & H2 & H3). destruct (hput_in h a p v) as (h1 & E1); [now rewrite (proj1 Hh)|]. rewrite E1 in E. injection E as <- <-.
    split; [|exact H3]. exact (hput_heap_in n V h a p v h1 Hh (proj1 H1) H2 E1).
Qed.
Lemma exec_allowed {A} n V : forall sched h (ts : list (prog A)) Qs h' ts', heap_in n V h -> Forall2 (fun Q t => allowed n V Q t) Qs ts ->
  exec sched h ts = (h', ts') -> heap_in n V h' /\ Forall2 (fun Q t => allowed n V Q t) Qs ts'.
Proof.
  induction sched as [|j sched IH]; intros h ts Qs h' ts' Hh HF E; cbn [exec] in E; [injection E as <- <-; now split|].
  destruct (nth_error ts j) as [t|] eqn:Ej; [|eapply IH; eassumption].
  destruct (advance h t) as [h1 t1] eqn:E1. destruct (Forall2_nth _ _ _ HF j t Ej) as (Q & EQ & HQ).
  destruct (advance_allowed n V Q h t h1 t1 Hh HQ E1) as [X1 X2]. eapply IH; [exact X1| |exact E].
  eapply Forall2_set; eassumption.
Qed.

Lemma puts_allowed {A} n V (m : prog A) : forall L, pbind m (fun _ => Ret (Ok [])) = puts L ->
  Forall (fun w => 0 <= snd (fst w) < n (fst (fst w)) /\ V (fst (fst w)) (snd (fst w)) (snd w)) L ->
  allowed n V (fun r => exists x, r = Ok x) m.
Proof.
  induction m as [[x|e]|a p k IH|a p v k IH]; intros L E F; cbn [pbind allowed] in *.
  - eauto.
  - destruct L as [|[[a p] v] L]; discriminate.
  - destruct L as [|[[b q] v] L]; discriminate.
  - destruct L as [|[[b q] w] L]; [discriminate|]. injection E as <- <- <- E. inversion F as [|? ? [F1 F2] F3]; subst. cbn [fst snd] in *.
    split; [exact F1|]. split; [exact F2|]. eapply IH; eassumption.
Qed.

Lemma assign_allowed h (V : nat -> Z -> pyval -> Prop) t ix v : writer_ok h (t, ix, v) -> (forall a p x, assigns (t, ix, v) (a, p) x -> V a p x) ->
  allowed (sizes h) V (fun r => exists x, r = Ok x) (setitem_t (SStrided t) ix (SrcSeq v)).
Proof.
  intros W HV. destruct (writer_puts h _ W) as (L & E & F & HL). cbn [writer_thread thread] in E.
  apply (puts_allowed _ _ _ L E). rewrite Forall_forall in *. intros [[a p] x] Hw. split; [exact (F _ Hw)|]. apply HV. now apply HL.
Qed.
Lemma read_allowed h (V : nat -> Z -> pyval -> Prop) t i : valid h (SStrided t) -> in_box i (sshape t) ->
  allowed (sizes h) V (fun r => exists x, r = Ok x /\ V (fst (place t i)) (snd (place t i)) x) (get_elem_t (SStrided t) i).
Proof.
  intros (f & l & El & S & _) Hi. cbn [get_elem_t]. unfold strided_elem_t. rewrite (normalize_ints i _ Hi). cbn [pbind].
  pose proof (Forall2_len _ _ _ Hi) as Li. rewrite is_element_ints by exact Li.
  assert (E : int_items (map NInt i) = i) by (clear; induction i; cbn; congruence). rewrite E.
  rewrite get_position_ok by (assumption || apply (so_strides _ _ S)). cbn [pbind buf_get_t allowed]. split.
  - unfold sizes. rewrite El. pose proof (so_pos _ _ S i Hi). pose proof (so_end _ _ S). unfold spos in *. lia.
  - intros v Hv. exists v. split; [reflexivity|exact Hv].
Qed.

Lemma thread_allowed h (V : nat -> Z -> pyval -> Prop) : forall ops, Forall (racing_op h) ops ->
  (forall o a p x, In o ops -> op_assigns o (a, p) x -> V a p x) ->
  allowed (sizes h) V (fun r => exists xs, r = Ok xs /\ reads_satisfy (fun t i x => V (fst (place t i)) (snd (place t i)) x) ops xs) (thread ops).
Proof.
  induction ops as [|o ops IH]; intros F HV; cbn [thread]; [exists []; split; reflexivity|]. inversion F as [|? ? Fo Fr]; subst.
  assert (I1 := IH Fr (fun o a p x Ho => HV o a p x (or_intror Ho))).
  destruct o as [s i|s ix value]; cbn [racing_op] in Fo; destruct s as [|t| | | | |]; try contradiction.
  - destruct Fo as [V1 Hi]. eapply allowed_bind; [| |apply (read_allowed h V t i V1 Hi)].
    + intros x (y & Ey & Hy). injection Ey as <-. eapply allowed_bind; [| |exact I1].
      * intros xs (ys & Eys & Hys). injection Eys as <-. cbn [allowed]. exists (x :: xs). split; [reflexivity|]. split; assumption.
      * intros e (ys & Eys & _). discriminate.
    + intros e (y & Ey & _). discriminate.
  - destruct value as [v|]; [|contradiction]. eapply allowed_bind; [| |apply (assign_allowed h V t ix v Fo)].
    + intros u _. exact I1.
    + intros e (y & Ey). discriminate.
    + intros a p x Hx. exact (HV _ a p x (or_introl eq_refl) Hx).
Qed.

(** Any number of threads read and assign to overlapping elements.  Under every
    schedule that lets them end, none of them fails, and whatever a thread reads
    from an element is the value the element had before the threads started or
    one that some thread assigns to that very element; so is what the element
    holds at the end. *)
Theorem C97_values : forall programs h sched h' rs,
  Forall (Forall (racing_op h)) programs ->
  exec sched h (map thread programs) = (h', map Ret rs) ->
  let possible t i x := get_elem h (SStrided t) i = Ok x \/ assigned programs (place t i) x in
  Forall2 (fun ops r => exists xs, r = Ok xs /\ reads_satisfy possible ops xs) programs rs
  /\ forall t i, valid h (SStrided t) -> in_box i (sshape t) ->
       exists x, get_elem h' (SStrided t) i = Ok x /\ possible t i x.
Proof.
  intros programs h sched h' rs F H possible.
  set (V := fun a p x => hget h a p = Ok x \/ assigned programs (a, p) x).
  set (Q := fun ops => fun r => exists xs, r = Ok xs /\ reads_satisfy (fun t i x => V (fst (place t i)) (snd (place t i)) x) ops xs).
  destruct (exec_allowed (sizes h) V sched h (map thread programs) (map Q programs) h' (map Ret rs)) as [[X1 X2] X3].
  - split; [reflexivity|]. intros a p x _ E. now left.
  - assert (G : forall l, (forall ops, In ops l -> In ops programs) -> Forall (Forall (racing_op h)) l ->
      Forall2 (fun (Q0 : res (list pyval) -> Prop) t => allowed (sizes h) V Q0 t) (map Q l) (map thread l)).
    { induction l as [|ops l IH]; intros Hl Fl; [constructor|]. inversion Fl as [|? ? Fo Fr]; subst. cbn [map]. constructor.
      - apply (thread_allowed h V ops Fo). intros o a p x Ho Hx. right. exists ops, o. split; [apply Hl; now left|]. now split.
      - apply IH; [|exact Fr]. intros ops' Ho. apply Hl. now right. }
    now apply G.
  - exact H.
  - split.
    + clear - X3 F. assert (G : forall l, Forall (Forall (racing_op h)) l -> forall rs,
        Forall2 (fun (Q0 : res (list pyval) -> Prop) t => allowed (sizes h) V Q0 t) (map Q l) (map Ret rs) ->
        Forall2 (fun ops r => exists xs, r = Ok xs /\ reads_satisfy possible ops xs) l rs).
      { induction l as [|ops l IH]; intros Fl [|r rs0] HF; cbn [map] in HF; inversion HF as [|? ? ? ? Hr HF']; subst; [constructor|].
        inversion Fl as [|? ? Fo Fr]; subst.
        constructor; [|now apply IH]. destruct Hr as (xs & -> & Hx). exists xs. split; [reflexivity|]. clear - Hx Fo.
        revert xs Hx. induction Fo as [|o ops Fo _ IH]; intros xs Hx; [exact Hx|]. destruct o as [s i|s ix value]; cbn [reads_satisfy] in *; [|now apply IH].
        destruct s as [|t| | | | |]; try contradiction. destruct xs as [|x xs]; [contradiction|]. destruct Hx as [Hx Hr]. split; [|now apply IH].
        destruct Fo as [V1 Hi]. unfold possible. rewrite (hget_elem h t i V1 Hi). destruct (place t i). exact Hx. }
      now apply G.
    + intros t i V1 Hi. assert (V2 : valid h' (SStrided t)) by (apply (valid_sizes h h' t X1); [now apply box_positive with i|exact V1]).
      pose proof (valid_place h t i V1 Hi) as Hp.
      assert (Hr : 0 <= snd (place t i) < sizes h (fst (place t i))).
      { split; [exact Hp|]. destruct V1 as (f & l & El & S & _). unfold sizes, place. cbn [fst snd]. rewrite El.
        pose proof (so_pos _ _ S i Hi). pose proof (so_end _ _ S). unfold spos in *. lia. }
      rewrite (hget_elem h' t i V2 Hi). destruct (hget_in h' (fst (place t i)) (snd (place t i))) as (x & Ex); [now rewrite X1|].
      exists x. split; [exact Ex|]. unfold possible. rewrite (hget_elem h t i V1 Hi).
      destruct (X2 _ _ x Hr Ex) as [E|E]; [now left|right]. destruct (place t i). exact E.
Qed.
Print Assumptions C97_values.

(** A reader can see an assignment half done: [7, 2] while [7, 7, 7, 7] is
    assigned to [1, 2, 3, 4]. *)
Theorem C96_half_seen_refuted :
  exists sched h', exec sched one_list (map thread [fill 7; [Read (SStrided whole) [0]; Read (SStrided whole) [1]]])
    = (h', map Ret [Ok []; Ok [VInt 7; VInt 2]]).
Proof. exists [0; 1; 1; 0; 0; 0]%nat, [map VInt [7; 7; 7; 7]]. vm_compute. reflexivity. Qed.
Print Assumptions C96_half_seen_refuted.

(** The hypotheses hold for two writers and a reader of the same elements. *)
Example C97_case :
  let programs := [fill 7; fill 8 ++ [Read (SStrided whole) [2]]; [Read (SStrided whole) [0]; Read (SStrided right_half) [0]]] in
  Forall (Forall (racing_op one_list)) programs
  /\ exec [0; 1; 2; 2; 1; 1; 1; 0; 0; 1; 0]%nat one_list (map thread programs)
     = ([map VInt [8; 7; 7; 7]], map Ret [Ok []; Ok [VInt 7]; Ok [VInt 8; VInt 3]]).
Proof.
  assert (V1 : valid one_list (SStrided whole)) by (apply (one_axis whole 4); cbn; reflexivity || lia).
  assert (V2 : valid one_list (SStrided right_half)) by (apply (one_axis right_half 2); cbn; reflexivity || lia).
  assert (W : forall x, racing_op one_list (Assign (SStrided whole) (XItem (ISlice (Sl None None None))) (SrcSeq (VSeq (map VInt [x; x; x; x]))))).
  { intros x. split; [exact V1|]. split; [constructor; [lia|constructor]|]. split; [split; [constructor; [discriminate|constructor]|right; cbn; lia]|].
    repeat split; repeat constructor; discriminate. }
  assert (R : forall t n i, valid one_list (SStrided t) -> sshape t = [n] -> 0 <= i < n -> racing_op one_list (Read (SStrided t) [i])).
  { intros t n i V E H. split; [exact V|]. rewrite E. constructor; [exact H|constructor]. }
  cbv zeta. split; [|vm_compute; reflexivity].
  constructor; [constructor; [apply W|constructor]|].
  constructor; [constructor; [apply W|constructor; [apply (R whole 4); [exact V1|reflexivity|lia]|constructor]]|].
  constructor; [|constructor].
  constructor; [apply (R whole 4); [exact V1|reflexivity|lia]|]. constructor; [apply (R right_half 2); [exact V2|reflexivity|lia]|constructor].
Qed.

(** C119: == while other threads run. *)
From Verif Require Import Py SliceTools Basics Storage Spec SliceFacts IndexFacts CompressFacts ReduceFacts SolverFacts
  SolveFacts Repr ReprFacts ViewFacts BuildFacts SparseFacts ConvFacts FromFacts MapFacts DMFacts ReadFacts WriteFacts RefineFacts EqFacts
  AliasFacts PropRead PropWrite PropEq PropLoop Threads ThreadFacts PropThreads PropRaces PropFlow Copies PropCopies PropSnap Iterate PropMoment Same.
From Coq Require Import List.
Import ListNotations.

(** * Two heaps *)
Lemma buf_eq2 g h a b vs ws : holds g a vs -> holds h b ws ->
  exists r, buf_eq_at g h a b = Ok r /\ (r = true <-> vs = ws /\ bunspec a = bunspec b).
Proof.
  intros Ha Hb. pose proof Ha as (l & Hl & _ & Hs & _). pose proof Hb as (m & Hm & _ & Ht & _).
  unfold buf_eq_at. rewrite (cell_ok _ _ _ Hl), (cell_ok _ _ _ Hm). cbn [bind].
  rewrite (holds_slice g a vs l Ha Hl), (holds_slice h b ws m Hb Hm).
  eexists. split; [reflexivity|]. rewrite !andb_true_iff. unfold vlist_eqb. rewrite !veqb_iff. split.
  - intros ((_ & E) & E'). injection E as ->. auto.
  - intros [-> E]. rewrite Hs, Ht, Z.eqb_refl. auto.
Qed.

Lemma strided_eq2 g h a b vs ws : holds g (sdata a) vs -> holds h (sdata b) ws ->
  exists r, strided_eq_at g h a b = Ok r
    /\ (r = true <-> sshape a = sshape b /\ sstrides a = sstrides b /\ vs = ws
                     /\ bunspec (sdata a) = bunspec (sdata b)).
Proof.
  intros Ha Hb. destruct (buf_eq2 g h _ _ vs ws Ha Hb) as (r & Er & Hr). unfold strided_eq_at.
  destruct (lex_eqb (sshape a) (sshape b)) eqn:E1; [destruct (lex_eqb (sstrides a) (sstrides b)) eqn:E2|]; cbn [andb].
  - apply lex_eqb_eq in E1, E2. exists r. split; [exact Er|]. rewrite Hr. tauto.
  - exists false. split; [reflexivity|]. split; [discriminate|]. intros (_ & E & _).
    apply lex_eqb_eq in E. congruence.
  - exists false. split; [reflexivity|]. split; [discriminate|]. intros (E & _).
    apply lex_eqb_eq in E. congruence.
Qed.

Lemma holds_same g h b vs : nth_error g (baddr b) = nth_error h (baddr b) -> holds h b vs -> holds g b vs.
Proof. intros E (l & Hl & R). exists l. rewrite E. auto. Qed.

(** The number of the slice taken of the data of [s]. *)
Fixpoint data_step (s : storage) : nat :=
  match s with
  | SBuffer _ | SStrided _ => 0
  | SCOO _ _ _ | SFlatCOO _ _ _ => 2
  | SCSR _ _ _ _ => 4
  | SC2SR _ _ _ _ _ _ => 6
  | SDM _ _ _ _ _ d => data_step d
  end.

(** The heaps in which the slices are taken. *)
Section Steps.
Variable H : nat -> heap.
Variable h : heap.
Definition steady (s : storage) : Prop := forall k, keeps s h (H k).

Lemma steady_index s : steady s -> forall j k a, In a (index_addrs s) -> nth_error (H j) a = nth_error (H k) a.
Proof. intros K j k a Ha. now rewrite (proj1 (K j) a Ha), (proj1 (K k) a Ha). Qed.

Lemma sparse_eq2 s t E F : steady s -> steady t -> entries (H (data_step s)) s E -> entries (H (S (data_step s))) t F -> same_class s t ->
  exists r, storage_eq_at H s t = Ok r
    /\ (r = true <-> shape_of s = shape_of t /\ unspecified_of s = unspecified_of t /\ E = F).
Proof.
  intros Ks Kt HE HF Hc. pose proof (steady_index s Ks) as Ms. pose proof (steady_index t Kt) as Mt.
  destruct s, t; try contradiction; cbn [storage_eq_at shape_of unspecified_of data_step index_addrs In] in *.
  - destruct HE as (Hn & Hne & (Hb & _) & Hd & Hsh & Hst & Hi & _ & Hu).
    destruct HF as (Hn' & Hne' & (Hb' & _) & Hd' & Hsh' & Hst' & Hi' & _ & Hu').
    apply (holds_same (H 0%nat)) in Hi; [|auto]. apply (holds_same (H 1%nat)) in Hi'; [|auto].
    destruct (if_ok (lex_eqb shape shape0) (andM (strided_eq_at (H 0%nat) (H 1%nat) indices indices0) (buf_eq_at (H 2%nat) (H 3%nat) data data0))
      (shape = shape0) _ (lex_eqb_eq _ _) (fun _ => andM_ok _ _ _ _ (strided_eq2 _ _ _ _ _ _ Hi Hi') (buf_eq2 _ _ _ _ _ _ Hd Hd')))
      as (r & Er & Hr). exists r. split; [exact Er|]. rewrite Hr. clear Er Hr. split.
    + intros (<- & (E1 & E2 & E3 & E4) & E5 & E6). split; [reflexivity|]. split; [exact E6|].
      apply pairs_eq; [|exact E5]. apply vint_map_eq in E3. apply (concat_columns_eq shape); auto.
      apply (f_equal (@length _)) in E5. now rewrite !map_length in E5.
    + intros (<- & E1 & <-). split; [reflexivity|]. rewrite Hsh, Hsh', Hst, Hst', Hu, Hu', E1. auto.
  - destruct HE as (Hn & Hne & (Hb & _) & Hd & Hi & _ & Hu).
    destruct HF as (Hn' & Hne' & (Hb' & _) & Hd' & Hi' & _ & Hu').
    apply (holds_same (H 0%nat)) in Hi; [|auto]. apply (holds_same (H 1%nat)) in Hi'; [|auto].
    destruct (if_ok (lex_eqb shape shape0) (andM (buf_eq_at (H 0%nat) (H 1%nat) findices findices0) (buf_eq_at (H 2%nat) (H 3%nat) data data0))
      (shape = shape0) _ (lex_eqb_eq _ _) (fun _ => andM_ok _ _ _ _ (buf_eq2 _ _ _ _ _ _ Hi Hi') (buf_eq2 _ _ _ _ _ _ Hd Hd')))
      as (r & Er & Hr). exists r. split; [exact Er|]. rewrite Hr. clear Er Hr. split.
    + intros (<- & (E1 & E2) & E5 & E6). split; [reflexivity|]. split; [exact E6|].
      apply pairs_eq; [|exact E5]. apply (map_inj_in (fun i => VInt (zdot i (c_strides shape)))).
      * intros x y Hx Hy Ez. injection Ez as Ez. rewrite c_strides_make in Ez.
        apply in_map_iff in Hx, Hy. destruct Hx as (e & <- & Hx), Hy as (f & <- & Hy).
        rewrite Forall_forall in Hb, Hb'. eapply ravel_inj; eauto.
      * now rewrite !map_map.
    + intros (<- & E1 & <-). split; [reflexivity|]. rewrite Hu, Hu', E1. auto.
  - destruct HE as (Hn & Hne & Ho & Hd & Hr & Hk & _ & _ & Hu & Hv).
    destruct HF as (Hn' & Hne' & Ho' & Hd' & Hr' & Hk' & _ & _ & Hu' & Hv').
    apply (holds_same (H 0%nat)) in Hr; [|auto]. apply (holds_same (H 1%nat)) in Hr'; [|auto].
    apply (holds_same (H 2%nat)) in Hk; [|auto]. apply (holds_same (H 3%nat)) in Hk'; [|auto].
    destruct (if_ok (lex_eqb shape shape0) (andM (buf_eq_at (H 0%nat) (H 1%nat) crow crow0) (andM (buf_eq_at (H 2%nat) (H 3%nat) col col0) (buf_eq_at (H 4%nat) (H 5%nat) data data0)))
      (shape = shape0) _ (lex_eqb_eq _ _)
      (fun _ => andM_ok _ _ _ _ (buf_eq2 _ _ _ _ _ _ Hr Hr')
         (andM_ok _ _ _ _ (buf_eq2 _ _ _ _ _ _ Hk Hk') (buf_eq2 _ _ _ _ _ _ Hd Hd'))))
      as (r & Er & Hx). exists r. split; [exact Er|]. rewrite Hx. clear Er Hx. split.
    + intros (<- & (E1 & _) & (E2 & _) & E5 & E6). split; [reflexivity|]. split; [exact E6|].
      apply pairs_eq; [|exact E5]. destruct shape as [|n [|m [|? ?]]]; cbn in Hne; try lia.
      assert (Hc0 : column 0 E = column 0 F).
      { pose proof (compress_column n m E Hn Ho) as C1. pose proof (compress_column n m F Hn Ho') as C2.
        assert (Ec : crow_of n E = crow_of n F).
        { apply vint_map_eq. unfold crow_of. rewrite !map_map. exact E1. }
        rewrite Ec in C1. destruct (ordered_columns n m E Ho) as [B1 _]. destruct (ordered_columns n m F Ho') as [B2 _].
        inversion Hn; subst.
        rewrite <- (uncompress_compress _ n _ (Sorted.StronglySorted_Sorted (column0_sorted n m E Ho)) ltac:(lia) B1 C1).
        exact (uncompress_compress _ n _ (Sorted.StronglySorted_Sorted (column0_sorted n m F Ho')) ltac:(lia) B2 C2). }
      apply (columns_rank [n; m]); [apply Ho|apply Ho'| |].
      * apply (f_equal (@length _)) in E5. now rewrite !map_length in E5.
      * intros [|[|k]] Hk0; cbn in Hk0; try lia; [exact Hc0|]. now apply vint_map_eq.
    + intros (<- & E1 & <-). split; [reflexivity|]. rewrite Hu, Hu', Hv, Hv', E1. auto.
Qed.

Lemma steady_repr s : valid h s -> steady s -> forall k, exists f, repr (H k) s f.
Proof. intros V K k. exact (valid_keeps s h (H k) V (K k)). Qed.

Lemma sparse_at s k : valid h s -> steady s -> is_sparse s -> exists E, entries (H k) s E.
Proof. intros V K Hs. destruct (steady_repr s V K k) as (f & R). destruct s; try contradiction; destruct R as (E & HE & _); now exists E. Qed.

Lemma eq_steps : forall s t, valid h s -> valid h t -> steady s -> steady t ->
  exists b, storage_eq_at H s t = Ok b
    /\ (forward s -> b = true -> same_class s t /\ shape_of s = shape_of t /\ unspecified_of s = unspecified_of t
          /\ forall i, in_box i (shape_of s) -> get_elem (H (data_step s)) s i = get_elem (H (S (data_step s))) t i).
Proof.
  assert (SP : forall s t, valid h s -> valid h t -> steady s -> steady t -> is_sparse s -> same_class s t ->
    exists b, storage_eq_at H s t = Ok b
    /\ (forward s -> b = true -> same_class s t /\ shape_of s = shape_of t /\ unspecified_of s = unspecified_of t
          /\ forall i, in_box i (shape_of s) -> get_elem (H (data_step s)) s i = get_elem (H (S (data_step s))) t i)).
  { intros s t Vs Vt Ks Kt Hs Hc. assert (Ht : is_sparse t) by (destruct s, t; try contradiction; exact I).
    destruct (sparse_at s (data_step s) Vs Ks Hs) as (E & HE). destruct (sparse_at t (S (data_step s)) Vt Kt Ht) as (F & HF).
    destruct (sparse_eq2 s t E F Ks Kt HE HF Hc) as (r & Er & Hr). exists r. split; [exact Er|]. intros _ ->.
    destruct (proj1 Hr eq_refl) as (A & B & ->). split; [exact Hc|]. split; [exact A|]. split; [exact B|]. intros i Hi.
    rewrite (repr_get _ _ _ i (repr_entries _ _ _ HE) Hi), (repr_get _ _ _ i (repr_entries _ _ _ HF)) by now rewrite <- A. now rewrite B. }
  induction s as [a|a|sh ind d|sh fi d|sh cr co d|sh ch x y z d|sh rd rsh rs ro d IH]; intros t Vs Vt Ks Kt;
    destruct t as [a'|a'|sh' ind' d'|sh' fi' d'|sh' cr' co' d'|sh' ch' x' y' z' d'|sh' rd' rsh' rs' ro' d'];
    try (exists false; split; [reflexivity|discriminate]); try (apply SP; auto; exact I).
  - destruct (steady_repr _ Vs Ks 0) as (f & vs & Hv & Hf). destruct (steady_repr _ Vt Kt 1) as (g & ws & Hw & Hg).
    cbn [storage_eq_at data_step]. destruct (buf_eq2 _ _ _ _ _ _ Hv Hw) as (r & Er & Hr). exists r. split; [exact Er|]. intros _ ->.
    destruct (proj1 Hr eq_refl) as [<- Hu]. split; [exact I|]. pose proof Hv as (_ & _ & _ & Hz & _). pose proof Hw as (_ & _ & _ & Hz' & _).
    cbn [shape_of unspecified_of]. split; [congruence|]. split; [exact Hu|]. intros i Hi.
    rewrite (repr_get (H 0%nat) (SBuffer a) f i (ex_intro _ vs (conj Hv Hf)) Hi).
    rewrite (repr_get (H 1%nat) (SBuffer a') g i (ex_intro _ vs (conj Hw Hg))) by (cbn [shape_of]; now rewrite Hz', <- Hz).
    inversion Hi as [|x n i' sh' Hx Hi']; subst. inversion Hi'; subst. rewrite Hf, Hg by lia. reflexivity.
  - destruct (steady_repr _ Vs Ks 0) as (f & Rf). destruct (steady_repr _ Vt Kt 1) as (g & Rg).
    pose proof Rf as (l & Hl & Hok & Hf). pose proof Rg as (m & Hm & Hok' & Hg).
    pose proof (window_holds _ _ l Hl Hok) as W1. pose proof (window_holds _ _ m Hm Hok') as W2.
    cbn [storage_eq_at data_step]. destruct (strided_eq2 _ _ _ _ _ _ W1 W2) as (r & Er & Hr). exists r. split; [exact Er|].
    intros Hfw ->. destruct (proj1 Hr eq_refl) as (E1 & E2 & E3 & E4). split; [exact I|]. cbn [shape_of unspecified_of].
    split; [exact E1|]. split; [exact E4|]. intros i Hi.
    rewrite (repr_get _ _ f i Rf Hi), (repr_get _ _ g i Rg) by (cbn [shape_of]; now rewrite <- E1).
    rewrite Hf by exact Hi. rewrite Hg by now rewrite <- E1. cbn [forward] in Hfw.
    rewrite (strided_window_value _ _ l i Hl) by assumption.
    rewrite (strided_window_value _ _ m i Hm) by (try assumption; rewrite <- ?E1, <- ?E2; assumption).
    rewrite E3, E2. reflexivity.
  - destruct Vs as (f & E & [] & _).
  - cbn [storage_eq_at data_step forward].
    assert (Vd : valid h d) by (destruct Vs as (f & g & Hg & _); now exists g).
    assert (Vd' : valid h d') by (destruct Vt as (f & g & Hg & _); now exists g).
    destruct (IH d' Vd Vd' Ks Kt) as (b & Eb & Hb).
    destruct (lex_eqb sh sh' && zll_eqb rd rd' && zll_eqb rs rs' && lex_eqb ro ro') eqn:E1; [|exists false; split; [reflexivity|discriminate]].
    rewrite !andb_true_iff, !lex_eqb_eq, !zll_eqb_eq in E1. destruct E1 as (((-> & ->) & ->) & ->).
    exists b. split; [exact Eb|]. intros Hfw Tb. destruct (Hb Hfw Tb) as (_ & E3 & E4 & E5). split; [exact I|]. cbn [shape_of unspecified_of].
    split; [reflexivity|]. split; [exact E4|]. intros i Hi.
    destruct (steady_repr _ Vs Ks (data_step d)) as (f & Rf). destruct (steady_repr _ Vt Kt (S (data_step d))) as (g & Rg).
    rewrite (repr_get _ _ f i Rf Hi), (repr_get _ _ g i Rg Hi).
    destruct Rf as (f' & Hf' & Hd & Hf), Rg as (g' & Hg' & Hd' & Hg). rewrite Hf, Hg by exact Hi.
    pose proof (dm_box _ _ _ _ _ _ Hd i Hi) as Hbx. specialize (E5 _ Hbx).
    now rewrite (repr_get _ _ f' _ Hf' Hbx), (repr_get _ _ g' _ Hg' (dm_box _ _ _ _ _ _ Hd' i Hi)) in E5.
Qed.
End Steps.

(** With nobody else around this is ==. *)
Theorem C119_alone : forall h s t, storage_eq_at (fun _ => h) s t = storage_eq h s t.
Proof.
  intros h. induction s; intros t; destruct t; try reflexivity. cbn [storage_eq_at storage_eq]. now rewrite IHs.
Qed.
Print Assumptions C119_alone.

(** [ms k] is the moment of slice number [k] of the comparison. *)
Definition one_after_the_other (ms : nat -> nat) : Prop := forall k, (ms k <= ms (S k))%nat.
Lemma moments_from ms : one_after_the_other ms -> forall k, (ms 0 <= ms k)%nat.
Proof. intros M. induction k as [|k IH]; [lia|]. specialize (M k). lia. Qed.

Lemma steady_moment {A} s sched h (ts : list (prog A)) ms : Forall (leaves (index_addrs s)) ts -> steady (fun k => moment sched h ts (ms k)) h s.
Proof. intros F k. now apply moment_keeps. Qed.

(** The comparison of [s] and [t] gives an answer, whatever the threads [ts] do
    meanwhile with the elements; if the answer is True and no axis is reversed,
    the two are of the same class, shape and unspecified value, and the elements
    of [s] at one moment are those of [t] at one moment, not earlier. *)
Theorem C119_when : forall A sched h (ts : list (prog A)) ms s t,
  valid h s -> valid h t -> one_after_the_other ms ->
  Forall (leaves (index_addrs s)) ts -> Forall (leaves (index_addrs t)) ts ->
  exists b, storage_eq_at (fun k => moment sched h ts (ms k)) s t = Ok b
    /\ (forward s -> b = true -> same_class s t /\ shape_of s = shape_of t /\ unspecified_of s = unspecified_of t
          /\ exists n n', (ms 0 <= n <= n')%nat
             /\ forall i, in_box i (shape_of s) -> get_elem (moment sched h ts n) s i = get_elem (moment sched h ts n') t i).
Proof.
  intros A sched h ts ms s t Vs Vt M Fs Ft.
  destruct (eq_steps _ h s t Vs Vt (steady_moment s sched h ts ms Fs) (steady_moment t sched h ts ms Ft)) as (b & Eb & Hb).
  exists b. split; [exact Eb|]. intros Hf Tb. destruct (Hb Hf Tb) as (H1 & H2 & H3 & H4). repeat (split; [assumption|]).
  exists (ms (data_step s)), (ms (S (data_step s))). split; [|exact H4]. pose proof (moments_from ms M (data_step s)). specialize (M (data_step s)). lia.
Qed.
Print Assumptions C119_when.

(** For Buffer, COO, FlatCOO and CSR the answer is True exactly then: there are
    two moments that decide it. *)
Theorem C119_exactly : forall A sched h (ts : list (prog A)) ms s t,
  valid h s -> valid h t -> one_after_the_other ms ->
  Forall (leaves (index_addrs s)) ts -> Forall (leaves (index_addrs t)) ts ->
  same_class s t -> is_sparse s \/ match s with SBuffer _ => True | _ => False end -> positive (shape_of s) -> positive (shape_of t) ->
  exists b n n', (ms 0 <= n <= n')%nat /\ storage_eq_at (fun k => moment sched h ts (ms k)) s t = Ok b
    /\ (b = true <-> shape_of s = shape_of t /\ unspecified_of s = unspecified_of t
          /\ elements (moment sched h ts n) s = elements (moment sched h ts n') t).
Proof.
  intros A sched h ts ms s t Vs Vt M Fs Ft Hc Hk Hp Hq.
  pose proof (steady_moment s sched h ts ms Fs) as Ks. pose proof (steady_moment t sched h ts ms Ft) as Kt.
  set (H := fun k => moment sched h ts (ms k)) in *.
  assert (O : (ms 0 <= ms (data_step s) <= ms (S (data_step s)))%nat) by (pose proof (moments_from ms M (data_step s)); specialize (M (data_step s)); lia).
  destruct Hk as [Hs|Hb].
  - assert (Ht : is_sparse t) by (destruct s, t; try contradiction; exact I).
    destruct (sparse_at H h s (data_step s) Vs Ks Hs) as (E & HE). destruct (sparse_at H h t (S (data_step s)) Vt Kt Ht) as (F & HF).
    destruct (sparse_eq2 H h s t E F Ks Kt HE HF Hc) as (r & Er & Hr).
    exists r, (ms (data_step s)), (ms (S (data_step s))). split; [exact O|]. split; [exact Er|]. rewrite Hr.
    change (moment sched h ts (ms (data_step s))) with (H (data_step s)). change (moment sched h ts (ms (S (data_step s)))) with (H (S (data_step s))).
    rewrite (elements_sparse _ s E HE Hp), (elements_sparse _ t F HF Hq). split; [intros (A1 & A2 & ->); auto|].
    intros (A1 & A2 & C). split; [exact A1|]. split; [exact A2|]. injection C as C.
    apply (map_inj_in (fun e => (KTup (fst e), snd e))) in C; [exact C|]. intros [i x] [j y] _ _ Ex. cbn in Ex. congruence.
  - destruct s as [a| | | | | |]; try contradiction. destruct t as [a'| | | | | |]; try contradiction.
    destruct (steady_repr H h _ Vs Ks 0) as (f & vs & Hv & Hf). destruct (steady_repr H h _ Vt Kt 1) as (g & ws & Hw & Hg).
    destruct (buf_eq2 _ _ _ _ _ _ Hv Hw) as (r & Er & Hr). exists r, (ms 0%nat), (ms 1%nat). split; [exact O|]. split; [exact Er|].
    change (moment sched h ts (ms 0%nat)) with (H 0%nat). change (moment sched h ts (ms 1%nat)) with (H 1%nat).
    rewrite Hr, (elements_buffer _ _ f (ex_intro _ vs (conj Hv Hf))), (elements_buffer _ _ g (ex_intro _ ws (conj Hw Hg))).
    pose proof Hv as (_ & _ & _ & Hz & _). pose proof Hw as (_ & _ & _ & Hz' & _). cbn [shape_of unspecified_of]. rewrite Hz, Hz'. split.
    + intros (<- & Hu). split; [reflexivity|]. split; [exact Hu|]. f_equal. apply map_ext_in. intros x Hx. apply In_zseq in Hx. now rewrite Hf, Hg.
    + intros (E1 & Hu & E2). split; [|exact Hu]. injection E1 as E1. injection E2 as E2. rewrite <- E1 in E2.
      apply (nth_ext _ _ VNone VNone); [apply zlen_eq_len, E1|]. intros n Hn.
      assert (Hx : In (Z.of_nat n) (zseq (zlen vs))) by (apply In_zseq; unfold zlen; lia).
      assert (Ex : f [Z.of_nat n] = g [Z.of_nat n]).
      { clear -E2 Hx. induction (zseq (zlen vs)) as [|x l IH]; [contradiction|]. cbn [map] in E2. injection E2 as E2 E3. destruct Hx as [->|Hx]; auto. }
      rewrite Hf, Hg in Ex by (unfold zlen in *; lia). now rewrite Nat2Z.id in Ex.
Qed.
Print Assumptions C119_exactly.

(** If no thread puts anything into the lists of [s] and [t] the answer is that of
    == before. *)
Theorem C119_still : forall A sched h (ts : list (prog A)) ms s t,
  Forall (leaves (addrs s)) ts -> Forall (leaves (addrs t)) ts ->
  storage_eq_at (fun k => moment sched h ts (ms k)) s t = storage_eq h s t.
Proof.
  intros A sched h ts ms s t Fs Ft.
  assert (C : forall u, Forall (leaves (addrs u)) ts -> forall k a, In a (addrs u) -> cell (moment sched h ts (ms k)) a = cell h a).
  { intros u F k a Ha. unfold moment. destruct (exec (firstn (ms k) sched) h ts) as [h' ts'] eqn:E. cbn [fst].
    destruct (exec_leaves _ _ _ _ _ _ F E) as [X _]. unfold cell. now rewrite (X a Ha). }
  pose proof (C s Fs) as Cs. pose proof (C t Ft) as Ct. clear C Fs Ft. set (H := fun k => moment sched h ts (ms k)).
  assert (Ds : forall k a, In a (addrs s) -> cell (H k) a = cell h a) by exact Cs.
  assert (Dt : forall k a, In a (addrs t) -> cell (H k) a = cell h a) by exact Ct. clearbody H. clear Cs Ct.
  assert (B : forall (l m : list nat) (Dl : forall k a, In a l -> cell (H k) a = cell h a) (Dm : forall k a, In a m -> cell (H k) a = cell h a) j k a b,
    In (baddr a) l -> In (baddr b) m -> buf_eq_at (H j) (H k) a b = buf_eq h a b).
  { intros l m Dl Dm j k a b Ha Hb. unfold buf_eq_at, buf_eq. now rewrite (Dl j _ Ha), (Dm k _ Hb). }
  revert t Dt. induction s as [a|a|sh ind d|sh fi d|sh cr co d|sh ch x y z d|sh rd rsh rs ro d IH]; intros t Dt; destruct t; try reflexivity;
    pose proof (B _ _ Ds Dt) as Bst;
    cbn [storage_eq_at storage_eq addrs data_addr index_addrs In] in *; unfold strided_eq_at, strided_eq;
    try (rewrite !Bst by auto 8; reflexivity).
  rewrite IH; auto.
Qed.
Print Assumptions C119_still.

(** A Buffer [1, 2], and a thread that assigns to its first element between the two
    slices: the Buffer is not == itself. *)
Definition own_buffer : storage := SBuffer (Buf 2 0 0 VNone).
Theorem C119_itself : exists sched h (ts : list (prog (list pyval))) ms s,
  valid h s /\ one_after_the_other ms /\ Forall (leaves (index_addrs s)) ts
  /\ storage_eq_at (fun k => moment sched h ts (ms k)) s s = Ok false.
Proof.
  exists [0%nat], [[VInt 1; VInt 2]], [thread [Assign own_buffer (XItem (IInt 0)) (SrcSeq (VInt 5))]], (fun k => k), own_buffer.
  split; [|split; [intros k; lia|split; [|vm_compute; reflexivity]]].
  - exists (fun i => nth (Z.to_nat (nth 0 i 0)) [VInt 1; VInt 2] VNone). exists [VInt 1; VInt 2]. split; [|intros; reflexivity].
    exists [VInt 1; VInt 2]. split; [reflexivity|]. split; [cbn; lia|]. split; [reflexivity|]. split; [cbn; lia|reflexivity].
  - constructor; [|constructor]. apply leaves_thread. intros a _ [].
Qed.
Print Assumptions C119_itself.

(** The answer can be True although the two have different elements at every
    moment. *)
Theorem C119_never : exists sched h (ts : list (prog (list pyval))) ms s t,
  valid h s /\ valid h t /\ one_after_the_other ms /\ Forall (leaves (index_addrs s)) ts /\ Forall (leaves (index_addrs t)) ts
  /\ storage_eq_at (fun k => moment sched h ts (ms k)) s t = Ok true
  /\ forall n, storage_eq (moment sched h ts n) s t = Ok false.
Proof.
  exists [0; 0; 0; 0]%nat, [[VInt 7; VInt 7]; [VInt 3; VInt 4]],
    [thread [Assign first_pair everything (SrcSeq (VSeq [VInt 1; VInt 2])); Assign second_pair everything (SrcSeq (VSeq [VInt 7; VInt 7]))]],
    (fun k => 4 * k)%nat, first_pair, second_pair.
  destruct (pairs_valid 7 7 3 4) as [V1 V2]. split; [exact V1|]. split; [exact V2|]. split; [intros k; lia|].
  split; [constructor; [|constructor]; apply leaves_thread; intros a _ []|].
  split; [constructor; [|constructor]; apply leaves_thread; intros a _ []|]. split; [vm_compute; reflexivity|].
  intros n. do 4 (destruct n as [|n]; [vm_compute; reflexivity|]). unfold moment. rewrite firstn_all2 by (cbn; lia). vm_compute. reflexivity.
Qed.
Print Assumptions C119_never.

(** Two COO arrays over the lists 0, 1 and 2, 3, of which one is assigned to while
    the other is compared with it: equal before, not after. *)
Definition left_coo : storage := SCOO [3] (Str [1; 2] [2; 1] (Buf 2 0 1 VNone)) (Buf 2 0 0 (VInt 0)).
Definition right_coo : storage := SCOO [3] (Str [1; 2] [2; 1] (Buf 2 0 3 VNone)) (Buf 2 0 2 (VInt 0)).
Definition coo_lists : heap := [map VInt [4; 5]; map VInt [0; 2]; map VInt [4; 5]; map VInt [0; 2]].
Example C119_case :
  let ts := [thread [Assign left_coo (XTuple [ISlice (Sl (Some 2) None None)]) (SrcSeq (VSeq [VInt 8]))]] in
  valid coo_lists left_coo /\ valid coo_lists right_coo /\ positive (shape_of left_coo)
  /\ Forall (leaves (index_addrs left_coo)) ts /\ Forall (leaves (index_addrs right_coo)) ts
  /\ exists sched,
       storage_eq_at (fun k => moment sched coo_lists ts (length sched * k)) left_coo right_coo = Ok false
       /\ storage_eq_at (fun k => moment sched coo_lists ts (length sched * (k - 2))) left_coo right_coo = Ok true.
Proof.
  cbv zeta.
  assert (K : entries coo_lists left_coo [([0], VInt 4); ([2], VInt 5)] /\ entries coo_lists right_coo [([0], VInt 4); ([2], VInt 5)]).
  { split; (split; [repeat constructor; lia|]; split; [discriminate|]; split; [split; [repeat constructor; cbn; lia|repeat constructor; cbn; lia]|];
      split; [eexists; repeat split; try reflexivity; cbn; lia|]; split; [reflexivity|]; split; [reflexivity|];
      split; [eexists; repeat split; try reflexivity; cbn; lia|]; split; [discriminate|reflexivity]). }
  split; [exact (ex_intro _ _ (repr_entries _ _ _ (proj1 K)))|]. split; [exact (ex_intro _ _ (repr_entries _ _ _ (proj2 K)))|].
  split; [repeat constructor; lia|].
  split; [constructor; [|constructor]; apply leaves_thread; cbn; intros a [<-|[]] [X|[]]; discriminate|].
  split; [constructor; [|constructor]; apply leaves_thread; cbn; intros a [<-|[]] [X|[]]; discriminate|].
  exists (repeat 0 8)%nat. split; vm_compute; reflexivity.
Qed.

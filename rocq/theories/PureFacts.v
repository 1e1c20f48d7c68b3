(** Constructors, conversions, slices and copies only allocate: whatever their
    arguments, no list that exists before the call is changed. *)
From Verif Require Import Py SliceTools Basics Storage Spec SliceFacts IndexFacts
  CompressFacts ReduceFacts SolverFacts SolveFacts Repr ReprFacts ViewFacts BuildFacts SparseFacts
  ConvFacts FromFacts DMFacts ReadFacts MapFacts ChainFacts WriteFacts.

Ltac binds H :=
  repeat match type of H with
  | bind _ _ = Ok _ => let x := fresh "x" in let E := fresh "E" in
      apply bind_ok in H; destruct H as (x & E & H); idtac
  end.

Lemma alloc_extends h l a h' : alloc h l = (a, h') -> extends h h' /\ a = length h.
Proof. unfold alloc. intros H. injection H as <- <-. split; [now exists [l]|reflexivity]. Qed.

Lemma new_buffer_extends h vs u b h' : new_buffer h vs u = Ok (b, h') -> extends h h'.
Proof.
  unfold new_buffer. destruct (alloc h vs) as [a h1] eqn:E. apply alloc_extends in E. intros H. binds H.
  injection H as _ <-. apply E.
Qed.

Lemma buffer_build_extends get sh su u h b h' : buffer_build get sh su u h = Ok (b, h') -> extends h h'.
Proof. unfold buffer_build. intros H. binds H. eapply new_buffer_extends; eassumption. Qed.

Lemma strided_build_extends get sh su u h b h' : strided_build get sh su u h = Ok (b, h') -> extends h h'.
Proof.
  unfold strided_build. intros H. apply bind_ok in H. destruct H as ([b1 h1] & E & H). binds H. injection H as _ <-.
  eapply buffer_build_extends; eassumption.
Qed.

Lemma buf_copy_extends h b u b' h' : buf_copy h b u = Ok (b', h') -> extends h h'.
Proof.
  unfold buf_copy. intros H. apply bind_ok in H. destruct H as (l & E & H). destruct (veqb _ _).
  - eapply new_buffer_extends; eassumption.
  - apply bind_ok in H. destruct H as (vs & _ & H). eapply new_buffer_extends; eassumption.
Qed.

Lemma list_ext {A} (l l' : list A) : (forall n, nth_error l n = nth_error l' n) -> l = l'.
Proof.
  revert l'. induction l as [|x l IH]; intros [|y l'] H.
  - reflexivity.
  - discriminate (H 0%nat).
  - discriminate (H 0%nat).
  - f_equal; [specialize (H 0%nat); now injection H|]. apply IH. intros n. exact (H (S n)).
Qed.

Lemma updated_new h x h' : updated (length h) (h ++ [x]) h' -> extends h h'.
Proof.
  intros [L O C].
  destruct (C x) as (x' & Hx & _). { rewrite nth_error_app2, Nat.sub_diag by lia. reflexivity. }
  exists [x']. apply list_ext. intros n. destruct (Nat.eq_dec n (length h)) as [->|N].
  - rewrite Hx, nth_error_app2, Nat.sub_diag by lia. reflexivity.
  - rewrite O by exact N. destruct (Nat.lt_ge_cases n (length h)) as [Hl|Hl].
    + now rewrite !nth_error_app1 by assumption.
    + rewrite !(proj2 (nth_error_None _ _)); [reflexivity|rewrite app_length; cbn; lia|rewrite app_length; cbn; lia].
Qed.

Lemma buf_set_updated h b i v h' : buf_set h b i v = Ok h' -> updated (baddr b) h h'.
Proof.
  intros H. pose proof (buf_write_frame b h i v) as F. unfold buf_write in F. rewrite H in F. exact F.
Qed.

Lemma strided_set_elem_updated h t ix v h' : strided_set_elem h t ix v = Ok h' -> updated (baddr (sdata t)) h h'.
Proof.
  unfold strided_set_elem. intros H. apply bind_ok in H. destruct H as (nix & _ & H).
  apply bind_ok in H. destruct H as ([[sh st] off] & _ & H). apply bind_ok in H. destruct H as (l & _ & H).
  revert h H. induction l as [|[vi p] l IH]; intros h H.
  - injection H as <-. apply updated_refl.
  - apply bind_ok in H. destruct H as (x & _ & H). apply bind_ok in H. destruct H as (h1 & E & H).
    eapply updated_trans; [eapply buf_set_updated; exact E|]. now apply IH.
Qed.

Lemma strided_copy_extends h t u t' h' : strided_copy h t u = Ok (t', h') -> extends h h'.
Proof.
  unfold strided_copy, alloc. intros H. apply bind_ok in H. destruct H as (d & Ed & H).
  apply bind_ok in H. destruct H as (r & Er & H). apply bind_ok in H. destruct H as (els & _ & H).
  apply bind_ok in H. destruct H as (h2 & Hg & H). injection H as _ <-.
  assert (Ha : baddr (sdata r) = length h).
  { unfold mk_strided in Er. binds Er. injection Er as <-. cbn [sdata].
    unfold mk_buffer in Ed. binds Ed. now injection Ed as <-. }
  set (x := repeat _ _) in *. apply (updated_new h x). rewrite <- Ha. clear Ed. revert Hg. generalize (h ++ [x]).
  induction els as [|[ix v] els IH]; intros h0 H.
  - injection H as <-. apply updated_refl.
  - apply bind_ok in H. destruct H as (h1 & E & H).
    eapply updated_trans; [eapply strided_set_elem_updated; exact E|]. now apply IH.
Qed.

Lemma coo_build_extends get sh su u h s h' : coo_build get sh su u h = Ok (s, h') -> extends h h'.
Proof.
  unfold coo_build. intros H. apply bind_ok in H. destruct H as (vs & _ & H).
  apply bind_ok in H. destruct H as ([d h1] & E1 & H). apply bind_ok in H. destruct H as ([i h2] & E2 & H).
  apply bind_ok in H. destruct H as (r & _ & H). injection H as _ <-.
  eapply extends_trans; [eapply new_buffer_extends; exact E1|eapply strided_build_extends; exact E2].
Qed.

Lemma flatcoo_build_extends get sh su u h s h' : flatcoo_build get sh su u h = Ok (s, h') -> extends h h'.
Proof.
  unfold flatcoo_build. intros H. apply bind_ok in H. destruct H as (vs & _ & H).
  apply bind_ok in H. destruct H as (fs & _ & H).
  apply bind_ok in H. destruct H as ([d h1] & E1 & H). apply bind_ok in H. destruct H as ([i h2] & E2 & H).
  apply bind_ok in H. destruct H as (r & _ & H). injection H as _ <-.
  eapply extends_trans; eapply new_buffer_extends; eassumption.
Qed.

Lemma coo_get_slice_extends h s d sh st off r h' : coo_get_slice h s d sh st off = Ok (r, h') -> extends h h'.
Proof.
  unfold coo_get_slice. intros H. apply bind_ok in H. destruct H as (l & _ & H). apply bind_ok in H. destruct H as (vs & _ & H).
  apply bind_ok in H. destruct H as (c0 & _ & H). destruct (alloc h _) as [a h1] eqn:Ea. apply alloc_extends in Ea.
  apply bind_ok in H. destruct H as (ib & _ & H). apply bind_ok in H. destruct H as (ind & _ & H).
  apply bind_ok in H. destruct H as ([d' h2] & E & H). apply bind_ok in H. destruct H as (r' & _ & H).
  injection H as _ <-. eapply extends_trans; [apply Ea|eapply new_buffer_extends; exact E].
Qed.

Lemma flatcoo_get_slice_extends h s d sh st off r h' : flatcoo_get_slice h s d sh st off = Ok (r, h') -> extends h h'.
Proof.
  unfold flatcoo_get_slice. intros H. apply bind_ok in H. destruct H as (l & _ & H). apply bind_ok in H. destruct H as (fs & _ & H).
  apply bind_ok in H. destruct H as (vs & _ & H).
  apply bind_ok in H. destruct H as ([d1 h1] & E1 & H). apply bind_ok in H. destruct H as ([d2 h2] & E2 & H).
  apply bind_ok in H. destruct H as (r' & _ & H). injection H as _ <-.
  eapply extends_trans; eapply new_buffer_extends; eassumption.
Qed.

Lemma csr_get_slice_extends h s d sh st off r h' : csr_get_slice h s d sh st off = Ok (r, h') -> extends h h'.
Proof.
  unfold csr_get_slice. intros H. destruct (zlen sh =? 1).
  - apply bind_ok in H. destruct H as ([c h1] & E & H). apply bind_ok in H. destruct H as (d1 & _ & H).
    eapply extends_trans; [eapply coo_build_extends; exact E|eapply coo_get_slice_extends; exact H].
  - apply bind_ok in H. destruct H as (u & _ & H). apply bind_ok in H. destruct H as (l & _ & H).
    apply bind_ok in H. destruct H as (vs & _ & H). apply bind_ok in H. destruct H as ([d1 h1] & E1 & H).
    apply bind_ok in H. destruct H as (n & _ & H). apply bind_ok in H. destruct H as (crow & _ & H).
    apply bind_ok in H. destruct H as ([cb h2] & E2 & H). apply bind_ok in H. destruct H as ([col h3] & E3 & H).
    apply bind_ok in H. destruct H as (r' & E & H). injection H as _ <-.
    eapply extends_trans; [eapply new_buffer_extends; exact E1|].
    eapply extends_trans; eapply buffer_build_extends; eassumption.
Qed.

Lemma getitem_extends : forall s h ix it h', getitem h s ix = Ok (it, h') -> extends h h'.
Proof.
  induction s as [b|t|sh ind d|sh fi d|sh cr co d|sh ch a b c d|sh rd rsh rs ro d IH]; intros h ix it h' H; cbn [getitem] in H.
  1,2: apply bind_ok in H; destruct H as (r & _ & H); injection H as _ <-; apply extends_refl.
  1-4: apply bind_ok in H; destruct H as (nix & _ & H); destruct (is_element_index nix _);
    [apply bind_ok in H; destruct H as (v & _ & H); injection H as _ <-; apply extends_refl|];
    apply bind_ok in H; destruct H as ([[sh' st] off] & _ & H); apply bind_ok in H; destruct H as (d' & _ & H);
    apply bind_ok in H; destruct H as ([r h1] & E & H); injection H as _ <-.
  - eapply coo_get_slice_extends; exact E.
  - eapply flatcoo_get_slice_extends; exact E.
  - eapply csr_get_slice_extends; exact E.
  - discriminate.
  - apply bind_ok in H. destruct H as (nix & _ & H). destruct (is_element_index nix sh).
    + apply bind_ok in H. destruct H as (r & _ & H). eapply IH; exact H.
    + apply bind_ok in H. destruct H as (nix2 & _ & H). apply bind_ok in H. destruct H as (gsh & _ & H).
      apply bind_ok in H. destruct H as ([[[ro' rs'] di] rd'] & _ & H).
      apply bind_ok in H. destruct H as ([it' h1] & Ei & H).
      assert (Hx : extends h h1).
      { destruct di; [injection Ei as _ <-; apply extends_refl|eapply IH; exact Ei]. }
      destruct it'; [discriminate|]. apply bind_ok in H. destruct H as (r & _ & H). now injection H as _ <-.
Qed.

Lemma buffer_fromobject_extends h src a b h' : buffer_fromobject h src a = Ok (b, h') -> extends h h'.
Proof.
  unfold buffer_fromobject. intros H. destruct src as [v|[]]; try (eapply buffer_build_extends; exact H).
  destruct (is_default a); [injection H as _ <-; apply extends_refl|eapply buffer_build_extends; exact H].
Qed.

Lemma strided_fromobject_extends h src a b h' : strided_fromobject h src a = Ok (b, h') -> extends h h'.
Proof.
  unfold strided_fromobject. intros H. destruct src as [v|[]]; try (eapply strided_build_extends; exact H).
  destruct (is_default a); [injection H as _ <-; apply extends_refl|eapply strided_build_extends; exact H].
Qed.

Lemma coo_of_flatcoo_extends h sh f d s h' : coo_of_flatcoo h sh f d = Ok (s, h') -> extends h h'.
Proof.
  unfold coo_of_flatcoo. intros H. apply bind_ok in H. destruct H as (l & _ & H).
  apply bind_ok in H. destruct H as ([i h1] & E1 & H). apply bind_ok in H. destruct H as ([d1 h2] & E2 & H).
  apply bind_ok in H. destruct H as (r & _ & H). injection H as _ <-.
  eapply extends_trans; [eapply strided_build_extends; exact E1|eapply buf_copy_extends; exact E2].
Qed.

Lemma flatcoo_of_coo_extends h sh f d s h' : flatcoo_of_coo h sh f d = Ok (s, h') -> extends h h'.
Proof.
  unfold flatcoo_of_coo. intros H. apply bind_ok in H. destruct H as (l & _ & H).
  apply bind_ok in H. destruct H as (fs & _ & H).
  apply bind_ok in H. destruct H as ([i h1] & E1 & H). apply bind_ok in H. destruct H as ([d1 h2] & E2 & H).
  apply bind_ok in H. destruct H as (r & _ & H). injection H as _ <-.
  eapply extends_trans; [eapply new_buffer_extends; exact E1|eapply buf_copy_extends; exact E2].
Qed.

Lemma csr_of_coo_extends h sh i d s h' : csr_of_coo h sh i d = Ok (s, h') -> extends h h'.
Proof.
  unfold csr_of_coo. intros H. apply bind_ok in H. destruct H as (r0 & _ & H). apply bind_ok in H. destruct H as (n0 & _ & H).
  apply bind_ok in H. destruct H as (nse & _ & H). apply bind_ok in H. destruct H as (rows & _ & H).
  apply bind_ok in H. destruct H as (crow & _ & H). apply bind_ok in H. destruct H as ([cb h1] & E1 & H).
  apply bind_ok in H. destruct H as (r1 & _ & H). apply bind_ok in H. destruct H as ([r1c h2] & E2 & H).
  apply bind_ok in H. destruct H as ([col h3] & E3 & H). apply bind_ok in H. destruct H as ([d4 h4] & E4 & H).
  apply bind_ok in H. destruct H as (s' & _ & H). injection H as _ <-.
  eapply extends_trans; [eapply buffer_build_extends; exact E1|].
  eapply extends_trans; [eapply strided_copy_extends; exact E2|].
  eapply extends_trans; [eapply buffer_fromobject_extends; exact E3|eapply buf_copy_extends; exact E4].
Qed.

Lemma coo_fromobject_extends h src a s h' : coo_fromobject h src a = Ok (s, h') -> extends h h'.
Proof.
  unfold coo_fromobject. intros H. destruct src as [v|[]]; try (eapply coo_build_extends; exact H); destruct (is_default a);
    try (eapply coo_build_extends; exact H).
  - injection H as _ <-; apply extends_refl.
  - eapply coo_of_flatcoo_extends; exact H.
Qed.

Lemma flatcoo_fromobject_extends h src a s h' : flatcoo_fromobject h src a = Ok (s, h') -> extends h h'.
Proof.
  unfold flatcoo_fromobject. intros H. destruct src as [v|[]]; try (eapply flatcoo_build_extends; exact H); destruct (is_default a);
    try (eapply flatcoo_build_extends; exact H).
  - eapply flatcoo_of_coo_extends; exact H.
  - injection H as _ <-; apply extends_refl.
Qed.

Lemma flat_fromobject_extends c h src a s h' : flat_fromobject c h src a = Ok (s, h') -> extends h h'.
Proof.
  destruct c; cbn [flat_fromobject]; intros H; try discriminate.
  - apply bind_ok in H. destruct H as ([b h1] & E & H). injection H as _ <-. eapply buffer_fromobject_extends; exact E.
  - apply bind_ok in H. destruct H as ([b h1] & E & H). injection H as _ <-. eapply strided_fromobject_extends; exact E.
  - eapply coo_fromobject_extends; exact H.
  - eapply flatcoo_fromobject_extends; exact H.
  - unfold csr_fromobject in H. apply bind_ok in H. destruct H as ([c h1] & E & H). destruct c; try discriminate.
    eapply extends_trans; [eapply coo_fromobject_extends; exact E|eapply csr_of_coo_extends; exact H].
Qed.

Lemma dm_fromobject_gen_extends is_buffer fo h src a dims part s h' :
  (forall h src a s h', fo h src a = Ok (s, h') -> extends h h') ->
  dm_fromobject_gen is_buffer fo h src a dims part = Ok (s, h') -> extends h h'.
Proof.
  intros Hfo H. unfold dm_fromobject_gen in H.
  apply bind_ok in H. destruct H as (? & _ & H). apply bind_ok in H. destruct H as (? & _ & H).
  apply bind_ok in H. destruct H as (? & _ & H). apply bind_ok in H. destruct H as ([[? ?] ?] & _ & H).
  apply bind_ok in H. destruct H as ([st h1] & E & H). apply bind_ok in H. destruct H as (? & _ & H).
  apply bind_ok in H. destruct H as (? & _ & H). injection H as _ <-. eapply Hfo; exact E.
Qed.

Lemma dm_fromobject_extends h src a dims part c s h' : dm_fromobject h src a dims part c = Ok (s, h') -> extends h h'.
Proof.
  destruct c; cbn [dm_fromobject]; apply dm_fromobject_gen_extends; try (intros *; apply flat_fromobject_extends).
  intros *. apply dm_fromobject_gen_extends. intros *. apply flat_fromobject_extends.
Qed.

Lemma fromobject_extends c h src a s h' : fromobject c h src a = Ok (s, h') -> extends h h'.
Proof.
  destruct c; cbn [fromobject]; try apply flat_fromobject_extends. apply dm_fromobject_extends.
Qed.

Lemma as_storage_extends c h s u t h' : as_storage c h s u = Ok (t, h') -> extends h h'.
Proof.
  destruct c; cbn [as_storage]; try apply flat_fromobject_extends. apply dm_fromobject_extends.
Qed.

Lemma copy_extends : forall s h u t h', copy h s u = Ok (t, h') -> extends h h'.
Proof.
  induction s as [b|t|sh ind d|sh fi d|sh cr co d|sh ch a b c d|sh rd rsh rs ro d IH]; intros h u r h' H; cbn [copy] in H.
  - apply bind_ok in H. destruct H as ([b' h1] & E & H). injection H as _ <-. eapply buf_copy_extends; exact E.
  - apply bind_ok in H. destruct H as ([b' h1] & E & H). injection H as _ <-. eapply strided_copy_extends; exact E.
  - apply bind_ok in H. destruct H as ([b' h1] & E & H). apply bind_ok in H. destruct H as (x & _ & H).
    injection H as _ <-. eapply buf_copy_extends; exact E.
  - apply bind_ok in H. destruct H as ([b' h1] & E & H). apply bind_ok in H. destruct H as (x & _ & H).
    injection H as _ <-. eapply buf_copy_extends; exact E.
  - apply bind_ok in H. destruct H as ([b' h1] & E & H). apply bind_ok in H. destruct H as (x & _ & H).
    injection H as _ <-. eapply buf_copy_extends; exact E.
  - apply bind_ok in H. destruct H as ([b' h1] & E & H). do 4 (apply bind_ok in H; destruct H as (? & _ & H)).
    injection H as _ <-. eapply buf_copy_extends; exact E.
  - apply bind_ok in H. destruct H as ([b' h1] & E & H). apply bind_ok in H. destruct H as (x & _ & H).
    injection H as _ <-. eapply IH; exact E.
Qed.

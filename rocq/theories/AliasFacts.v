(** Which lists the result of an operation refers to, whatever its arguments;
    and that reads depend on those lists only. *)
From Verif Require Import Py SliceTools Basics Storage Spec SliceFacts IndexFacts
  CompressFacts ReduceFacts SolverFacts SolveFacts Repr ReprFacts ViewFacts BuildFacts SparseFacts
  ConvFacts FromFacts DMFacts ReadFacts MapFacts ChainFacts WriteFacts PureFacts.

(** [s] was allocated between [h] and [h'], its elements apart from its indices. *)
Record made (h h' : heap) (s : storage) : Prop := {
  md_range : forall a, In a (addrs s) -> (length h <= a < length h')%nat;
  md_apart : ~ In (data_addr s) (index_addrs s) }.

Lemma extends_length h h' : extends h h' -> (length h <= length h')%nat.
Proof. intros [t ->]. rewrite app_length. lia. Qed.

Lemma new_buffer_addr h vs u b h' : new_buffer h vs u = Ok (b, h') -> baddr b = length h /\ length h' = S (length h).
Proof.
  unfold new_buffer, alloc. intros H. apply bind_ok in H. destruct H as (x & E & H). injection H as <- <-.
  unfold mk_buffer in E. apply bind_ok in E. destruct E as (l & _ & E). apply bind_ok in E. destruct E as (y & _ & E).
  injection E as <-. rewrite app_length. cbn. split; [reflexivity|lia].
Qed.

Lemma buffer_build_addr get sh su u h b h' : buffer_build get sh su u h = Ok (b, h') ->
  baddr b = length h /\ length h' = S (length h).
Proof. unfold buffer_build. intros H. apply bind_ok in H. destruct H as (vs & _ & H). eapply new_buffer_addr; exact H. Qed.

Lemma mk_strided_data sh st b t : mk_strided sh st b = Ok t -> sdata t = b.
Proof. unfold mk_strided. intros H. apply bind_ok in H. destruct H as (? & _ & H). now injection H as <-. Qed.

Lemma mk_buffer_addr h n o a u b : mk_buffer h n o a u = Ok b -> baddr b = a.
Proof.
  unfold mk_buffer. intros H. apply bind_ok in H. destruct H as (? & _ & H). apply bind_ok in H. destruct H as (? & _ & H).
  now injection H as <-.
Qed.

Lemma strided_build_addr get sh su u h t h' : strided_build get sh su u h = Ok (t, h') ->
  baddr (sdata t) = length h /\ length h' = S (length h).
Proof.
  unfold strided_build. intros H. apply bind_ok in H. destruct H as ([b h1] & E & H).
  apply bind_ok in H. destruct H as (r & Er & H). injection H as <- <-. rewrite (mk_strided_data _ _ _ _ Er).
  eapply buffer_build_addr; exact E.
Qed.

Lemma buf_copy_addr h b u b' h' : buf_copy h b u = Ok (b', h') -> baddr b' = length h /\ length h' = S (length h).
Proof.
  unfold buf_copy. intros H. apply bind_ok in H. destruct H as (l & E & H). destruct (veqb _ _).
  - eapply new_buffer_addr; eassumption.
  - apply bind_ok in H. destruct H as (vs & _ & H). eapply new_buffer_addr; eassumption.
Qed.

Lemma strided_copy_addr h t u t' h' : strided_copy h t u = Ok (t', h') ->
  baddr (sdata t') = length h /\ length h' = S (length h).
Proof.
  unfold strided_copy, alloc. intros H. apply bind_ok in H. destruct H as (d & Ed & H).
  apply bind_ok in H. destruct H as (r & Er & H). apply bind_ok in H. destruct H as (els & _ & H).
  apply bind_ok in H. destruct H as (h2 & Hg & H). injection H as <- <-.
  rewrite (mk_strided_data _ _ _ _ Er), (mk_buffer_addr _ _ _ _ _ _ Ed). split; [reflexivity|].
  set (x := repeat _ _) in *.
  assert (L : length h2 = length (h ++ [x])); [|rewrite L, app_length; cbn; lia].
  clear Ed. revert Hg. generalize (h ++ [x]).
  induction els as [|[ix v] els IH]; intros h0 H.
  - now injection H as <-.
  - apply bind_ok in H. destruct H as (h1 & E & H). rewrite (IH _ H).
    exact (up_len _ _ _ (strided_set_elem_updated _ _ _ _ _ E)).
Qed.

Lemma mk_coo_eq sh i d s : mk_coo sh i d = Ok s -> s = SCOO sh i d.
Proof.
  unfold mk_coo. intros H. apply bind_ok in H. destruct H as (? & _ & H). apply bind_ok in H. destruct H as (? & _ & H).
  now injection H as <-.
Qed.
Lemma mk_flatcoo_eq sh i d s : mk_flatcoo sh i d = Ok s -> s = SFlatCOO sh i d.
Proof. unfold mk_flatcoo. intros H. apply bind_ok in H. destruct H as (? & _ & H). now injection H as <-. Qed.
Lemma mk_csr_eq sh a b d s : mk_csr sh a b d = Ok s -> s = SCSR sh a b d.
Proof. unfold mk_csr. intros H. do 4 (apply bind_ok in H; destruct H as (? & _ & H)). now injection H as <-. Qed.
Lemma mk_dm_eq sh rd rs ro d s : mk_dm sh rd rs ro d = Ok s -> exists rsh, s = SDM sh rd rsh rs ro d.
Proof.
  unfold mk_dm. destruct rd; [discriminate|]. intros H. apply bind_ok in H. destruct H as (? & _ & H).
  apply bind_ok in H. destruct H as ([[? ?] ?] & _ & H). injection H as <-. eauto.
Qed.

Lemma coo_made h h' sh i d a b : baddr (sdata i) = a -> baddr d = b ->
  (length h <= a < length h')%nat -> (length h <= b < length h')%nat -> a <> b -> made h h' (SCOO sh i d).
Proof.
  intros <- <- H1 H2 H3. constructor; unfold addrs; cbn [data_addr index_addrs].
  - intros x [<-|[<-|[]]]; assumption.
  - intros [E|[]]. congruence.
Qed.

Lemma coo_build_made get sh su u h s h' : coo_build get sh su u h = Ok (s, h') -> made h h' s.
Proof.
  unfold coo_build. intros H. apply bind_ok in H. destruct H as (vs & _ & H).
  apply bind_ok in H. destruct H as ([d h1] & E1 & H). apply bind_ok in H. destruct H as ([i h2] & E2 & H).
  apply bind_ok in H. destruct H as (r & E3 & H). injection H as <- <-.
  apply new_buffer_addr in E1. apply strided_build_addr in E2. apply mk_coo_eq in E3. subst r.
  eapply coo_made; [reflexivity|reflexivity|lia..].
Qed.

Lemma flatcoo_made h h' sh i d a b : baddr i = a -> baddr d = b ->
  (length h <= a < length h')%nat -> (length h <= b < length h')%nat -> a <> b -> made h h' (SFlatCOO sh i d).
Proof.
  intros <- <- H1 H2 H3. constructor; unfold addrs; cbn [data_addr index_addrs].
  - intros x [<-|[<-|[]]]; assumption.
  - intros [E|[]]. congruence.
Qed.

Lemma flatcoo_build_made get sh su u h s h' : flatcoo_build get sh su u h = Ok (s, h') -> made h h' s.
Proof.
  unfold flatcoo_build. intros H. apply bind_ok in H. destruct H as (vs & _ & H).
  apply bind_ok in H. destruct H as (fs & _ & H).
  apply bind_ok in H. destruct H as ([d h1] & E1 & H). apply bind_ok in H. destruct H as ([i h2] & E2 & H).
  apply bind_ok in H. destruct H as (r & E3 & H). injection H as <- <-.
  apply new_buffer_addr in E1. apply new_buffer_addr in E2. apply mk_flatcoo_eq in E3. subst r.
  eapply flatcoo_made; [reflexivity|reflexivity|lia..].
Qed.

Lemma coo_get_slice_made h s d sh st off r h' : coo_get_slice h s d sh st off = Ok (r, h') -> made h h' r.
Proof.
  unfold coo_get_slice. intros H. apply bind_ok in H. destruct H as (l & _ & H). apply bind_ok in H. destruct H as (vs & _ & H).
  apply bind_ok in H. destruct H as (c0 & _ & H). unfold alloc in H.
  apply bind_ok in H. destruct H as (ib & E1 & H). apply bind_ok in H. destruct H as (ind & E2 & H).
  apply bind_ok in H. destruct H as ([d' h2] & E & H). apply bind_ok in H. destruct H as (r' & E3 & H).
  injection H as <- <-. apply new_buffer_addr in E. rewrite app_length in E. cbn [length] in E.
  apply mk_buffer_addr in E1. apply mk_strided_data in E2. subst ib. apply mk_coo_eq in E3. subst r'.
  eapply coo_made; [reflexivity|reflexivity|lia..].
Qed.

Lemma flatcoo_get_slice_made h s d sh st off r h' : flatcoo_get_slice h s d sh st off = Ok (r, h') -> made h h' r.
Proof.
  unfold flatcoo_get_slice. intros H. apply bind_ok in H. destruct H as (l & _ & H). apply bind_ok in H. destruct H as (fs & _ & H).
  apply bind_ok in H. destruct H as (vs & _ & H).
  apply bind_ok in H. destruct H as ([d1 h1] & E1 & H). apply bind_ok in H. destruct H as ([d2 h2] & E2 & H).
  apply bind_ok in H. destruct H as (r' & E3 & H). injection H as <- <-.
  apply new_buffer_addr in E1. apply new_buffer_addr in E2. apply mk_flatcoo_eq in E3. subst r'.
  eapply flatcoo_made; [reflexivity|reflexivity|lia..].
Qed.

Lemma made_weaken h0 h1 h2 h3 s : (length h0 <= length h1)%nat -> (length h2 <= length h3)%nat -> made h1 h2 s -> made h0 h3 s.
Proof. intros H1 H2 [R A]. constructor; [|exact A]. intros a Ha. specialize (R a Ha). lia. Qed.

Lemma csr_made h h' sh c i d x y z : baddr c = x -> baddr i = y -> baddr d = z ->
  (length h <= x < length h')%nat -> (length h <= y < length h')%nat -> (length h <= z < length h')%nat ->
  x <> z -> y <> z -> made h h' (SCSR sh c i d).
Proof.
  intros <- <- <- H1 H2 H3 H4 H5. constructor; unfold addrs; cbn [data_addr index_addrs].
  - intros a [<-|[<-|[<-|[]]]]; assumption.
  - intros [E|[E|[]]]; congruence.
Qed.

Lemma csr_get_slice_made h s d sh st off r h' : csr_get_slice h s d sh st off = Ok (r, h') -> made h h' r.
Proof.
  unfold csr_get_slice. intros H. destruct (zlen sh =? 1).
  - apply bind_ok in H. destruct H as ([c h1] & E & H). apply bind_ok in H. destruct H as (d1 & _ & H).
    apply coo_build_extends, extends_length in E. apply coo_get_slice_made in H.
    eapply made_weaken; [exact E|apply le_n|exact H].
  - apply bind_ok in H. destruct H as (u & _ & H). apply bind_ok in H. destruct H as (l & _ & H).
    apply bind_ok in H. destruct H as (vs & _ & H). apply bind_ok in H. destruct H as ([d1 h1] & E1 & H).
    apply bind_ok in H. destruct H as (n & _ & H). apply bind_ok in H. destruct H as (crow & _ & H).
    apply bind_ok in H. destruct H as ([cb h2] & E2 & H). apply bind_ok in H. destruct H as ([col h3] & E3 & H).
    apply bind_ok in H. destruct H as (r' & E & H). injection H as <- <-. apply mk_csr_eq in E. subst r'.
    apply new_buffer_addr in E1. apply buffer_build_addr in E2. apply buffer_build_addr in E3.
    eapply csr_made; [reflexivity|reflexivity|reflexivity|lia..].
Qed.

Lemma buf_slice_addr h b sl b' : buf_slice h b sl = Ok b' -> baddr b' = baddr b.
Proof.
  unfold buf_slice. intros H. apply bind_ok in H. destruct H as (l & _ & H).
  destruct (_ || _); [discriminate|]. destruct (_ || _); [discriminate|]. destruct (negb _); [discriminate|].
  eapply mk_buffer_addr; exact H.
Qed.

(** Slices of dense arrays share the list of elements, others are new. *)
Lemma getitem_addrs : forall s h ix s' h', getitem h s ix = Ok (ISto s', h') ->
  (dense_based s /\ dense_based s' /\ h' = h /\ data_addr s' = data_addr s /\ index_addrs s' = index_addrs s)
  \/ (sparse_based s /\ sparse_based s' /\ made h h' s').
Proof.
  induction s as [b|t|sh ind d|sh fi d|sh cr co d|sh ch a b c d|sh rd rsh rs ro d IH]; intros h ix s' h' H; cbn [getitem] in H.
  - left. unfold buffer_getitem in H. apply bind_ok in H. destruct H as (r & H & H'). injection H' as -> <-.
    apply bind_ok in H. destruct H as (i & _ & H). destruct i; [..|discriminate].
    + apply bind_ok in H. destruct H as (v & _ & H). discriminate.
    + apply bind_ok in H. destruct H as (b' & E & H). injection H as <-. apply buf_slice_addr in E. cbn. auto.
    + injection H as <-. cbn. auto.
  - left. unfold strided_getitem in H. apply bind_ok in H. destruct H as (r & H & H').
    injection H' as -> <-. apply bind_ok in H. destruct H as (nix & _ & H).
    destruct (is_element_index nix (sshape t)).
    + apply bind_ok in H. destruct H as (p & _ & H). apply bind_ok in H. destruct H as (v & _ & H). discriminate.
    + apply bind_ok in H. destruct H as ([[sh st] off] & _ & H). apply bind_ok in H. destruct H as (b & E & H).
      apply bind_ok in H. destruct H as (t' & E2 & H). injection H as <-. cbn. apply buf_slice_addr in E.
      apply mk_strided_data in E2. subst b. auto.
  - right. apply bind_ok in H. destruct H as (nix & _ & H). destruct (is_element_index nix _).
    + apply bind_ok in H. destruct H as (v & _ & H). discriminate.
    + apply bind_ok in H. destruct H as ([[sh' st] off] & _ & H). apply bind_ok in H. destruct H as (d' & _ & H).
      apply bind_ok in H. destruct H as ([r h1] & H & H'). injection H' as <- <-.
      assert (Hs : sparse_based r).
      { unfold coo_get_slice in H. do 3 (apply bind_ok in H; destruct H as (? & _ & H)). destruct (alloc _ _).
        do 2 (apply bind_ok in H; destruct H as (? & _ & H)). apply bind_ok in H. destruct H as ([? ?] & _ & H).
        apply bind_ok in H. destruct H as (r' & E & H). apply mk_coo_eq in E. injection H as <- _. subst r'. exact I. }
      split; [exact I|]. split; [exact Hs|]. eapply coo_get_slice_made; exact H.
  - right. apply bind_ok in H. destruct H as (nix & _ & H). destruct (is_element_index nix _).
    + apply bind_ok in H. destruct H as (v & _ & H). discriminate.
    + apply bind_ok in H. destruct H as ([[sh' st] off] & _ & H). apply bind_ok in H. destruct H as (d' & _ & H).
      apply bind_ok in H. destruct H as ([r h1] & H & H'). injection H' as <- <-.
      assert (Hs : sparse_based r).
      { unfold flatcoo_get_slice in H. do 3 (apply bind_ok in H; destruct H as (? & _ & H)).
        do 2 (apply bind_ok in H; destruct H as ([? ?] & _ & H)).
        apply bind_ok in H. destruct H as (r' & E & H). apply mk_flatcoo_eq in E. injection H as <- _. subst r'. exact I. }
      split; [exact I|]. split; [exact Hs|]. eapply flatcoo_get_slice_made; exact H.
  - right. apply bind_ok in H. destruct H as (nix & _ & H). destruct (is_element_index nix _).
    + apply bind_ok in H. destruct H as (v & _ & H). discriminate.
    + apply bind_ok in H. destruct H as ([[sh' st] off] & _ & H). apply bind_ok in H. destruct H as (d' & _ & H).
      apply bind_ok in H. destruct H as ([r h1] & H & H'). injection H' as <- <-.
      assert (Hs : sparse_based r).
      { unfold csr_get_slice in H. destruct (zlen sh' =? 1).
        - apply bind_ok in H. destruct H as ([? ?] & _ & H). apply bind_ok in H. destruct H as (? & _ & H).
          unfold coo_get_slice in H. do 3 (apply bind_ok in H; destruct H as (? & _ & H)). destruct (alloc _ _).
          do 2 (apply bind_ok in H; destruct H as (? & _ & H)). apply bind_ok in H. destruct H as ([? ?] & _ & H).
          apply bind_ok in H. destruct H as (r' & E & H). apply mk_coo_eq in E. injection H as <- _. subst r'. exact I.
        - do 3 (apply bind_ok in H; destruct H as (? & _ & H)). apply bind_ok in H. destruct H as ([? ?] & _ & H).
          do 2 (apply bind_ok in H; destruct H as (? & _ & H)). do 2 (apply bind_ok in H; destruct H as ([? ?] & _ & H)).
          apply bind_ok in H. destruct H as (r' & E & H). apply mk_csr_eq in E. injection H as <- _. subst r'. exact I. }
      split; [exact I|]. split; [exact Hs|]. eapply csr_get_slice_made; exact H.
  - apply bind_ok in H. destruct H as (nix & _ & H). destruct (is_element_index nix _).
    + apply bind_ok in H. destruct H as (v & _ & H). discriminate.
    + apply bind_ok in H. destruct H as ([[sh' st] off] & _ & H). apply bind_ok in H. destruct H as (d' & _ & H).
      apply bind_ok in H. destruct H as ([r h1] & H & H'). discriminate.
  - apply bind_ok in H. destruct H as (nix & _ & H). destruct (is_element_index nix sh).
    + apply bind_ok in H. destruct H as (r & _ & H). eapply IH; exact H.
    + apply bind_ok in H. destruct H as (nix2 & _ & H). apply bind_ok in H. destruct H as (gsh & _ & H).
      apply bind_ok in H. destruct H as ([[[ro' rs'] di] rd'] & Eg & H).
      apply bind_ok in H. destruct H as ([it' h1] & Ei & H).
      destruct it'; [discriminate|]. apply bind_ok in H. destruct H as (r & Em & H). injection H as <- <-.
      assert (Hdi : getitem h d (XTuple di) = Ok (ISto s, h1)).
      { destruct di; [|exact Ei]. exfalso. destruct rd as [|g gs]; cbn [dm_slice_groups] in Eg.
        - injection Eg as <- <- <-. discriminate Em.
        - destruct rsh; [discriminate|]. destruct rs; [discriminate|].
          apply bind_ok in Eg. destruct Eg as (? & _ & Eg). apply bind_ok in Eg. destruct Eg as ([[ksh ?] ?] & _ & Eg).
          apply bind_ok in Eg. destruct Eg as (? & _ & Eg). apply bind_ok in Eg. destruct Eg as (? & _ & Eg).
          apply bind_ok in Eg. destruct Eg as ([[[? ?] ?] ?] & _ & Eg).
          destruct ksh; discriminate. }
      apply mk_dm_eq in Em. destruct Em as (rsh' & ->).
      destruct (IH _ _ _ _ Hdi) as [(A & B & C & D & E)|(A & B & [M1 M2])]; [left|right].
      * cbn [data_addr index_addrs]. auto.
      * split; [exact A|]. split; [exact B|]. constructor; assumption.
Qed.

(** ** Constructors and conversions *)
Lemma buffer_fromobject_made h src a b h' : buffer_fromobject h src a = Ok (b, h') ->
  (src = SrcSto (SBuffer b) /\ is_default a = true /\ h' = h) \/ (baddr b = length h /\ length h' = S (length h)).
Proof.
  unfold buffer_fromobject. intros H. destruct src as [v|[]]; try (right; eapply buffer_build_addr; exact H).
  destruct (is_default a); [injection H as <- <-; now left|right; eapply buffer_build_addr; exact H].
Qed.
Lemma strided_fromobject_made h src a b h' : strided_fromobject h src a = Ok (b, h') ->
  (src = SrcSto (SStrided b) /\ is_default a = true /\ h' = h) \/ (baddr (sdata b) = length h /\ length h' = S (length h)).
Proof.
  unfold strided_fromobject. intros H. destruct src as [v|[]]; try (right; eapply strided_build_addr; exact H).
  destruct (is_default a); [injection H as <- <-; now left|right; eapply strided_build_addr; exact H].
Qed.
Lemma coo_of_flatcoo_made h sh f d s h' : coo_of_flatcoo h sh f d = Ok (s, h') -> made h h' s.
Proof.
  unfold coo_of_flatcoo. intros H. apply bind_ok in H. destruct H as (l & _ & H).
  apply bind_ok in H. destruct H as ([i h1] & E1 & H). apply bind_ok in H. destruct H as ([d1 h2] & E2 & H).
  apply bind_ok in H. destruct H as (r & E3 & H). injection H as <- <-. apply mk_coo_eq in E3. subst r.
  apply strided_build_addr in E1. apply buf_copy_addr in E2. eapply coo_made; [reflexivity|reflexivity|lia..].
Qed.
Lemma flatcoo_of_coo_made h sh f d s h' : flatcoo_of_coo h sh f d = Ok (s, h') -> made h h' s.
Proof.
  unfold flatcoo_of_coo. intros H. apply bind_ok in H. destruct H as (l & _ & H).
  apply bind_ok in H. destruct H as (fs & _ & H).
  apply bind_ok in H. destruct H as ([i h1] & E1 & H). apply bind_ok in H. destruct H as ([d1 h2] & E2 & H).
  apply bind_ok in H. destruct H as (r & E3 & H). injection H as <- <-. apply mk_flatcoo_eq in E3. subst r.
  apply new_buffer_addr in E1. apply buf_copy_addr in E2. eapply flatcoo_made; [reflexivity|reflexivity|lia..].
Qed.
Lemma csr_of_coo_made h sh i d s h' : csr_of_coo h sh i d = Ok (s, h') -> made h h' s /\ is_class CCSR s.
Proof.
  unfold csr_of_coo. intros H. apply bind_ok in H. destruct H as (r0 & _ & H). apply bind_ok in H. destruct H as (n0 & _ & H).
  apply bind_ok in H. destruct H as (nse & _ & H). apply bind_ok in H. destruct H as (rows & _ & H).
  apply bind_ok in H. destruct H as (crow & _ & H). apply bind_ok in H. destruct H as ([cb h1] & E1 & H).
  apply bind_ok in H. destruct H as (r1 & _ & H). apply bind_ok in H. destruct H as ([r1c h2] & E2 & H).
  apply bind_ok in H. destruct H as ([col h3] & E3 & H). apply bind_ok in H. destruct H as ([d4 h4] & E4 & H).
  apply bind_ok in H. destruct H as (s' & E5 & H). injection H as <- <-. apply mk_csr_eq in E5. subst s'.
  apply buffer_build_addr in E1. apply strided_copy_addr in E2. apply buf_copy_addr in E4.
  apply buffer_fromobject_made in E3. destruct E3 as [(E3 & _)|E3]; [discriminate|].
  split; [eapply csr_made; [reflexivity|reflexivity|reflexivity|lia..]|exact I].
Qed.

Lemma coo_fromobject_made h src a s h' : coo_fromobject h src a = Ok (s, h') ->
  is_class CCOO s /\ ((src = SrcSto s /\ is_default a = true /\ h' = h) \/ made h h' s).
Proof.
  assert (B : forall get sh su u, coo_build get sh su u h = Ok (s, h') -> is_class CCOO s).
  { intros get sh su u H. unfold coo_build in H. apply bind_ok in H. destruct H as (vs & _ & H).
    apply bind_ok in H. destruct H as ([d h1] & E1 & H). apply bind_ok in H. destruct H as ([i h2] & E2 & H).
    apply bind_ok in H. destruct H as (r & E3 & H). injection H as <- _. apply mk_coo_eq in E3. now subst r. }
  unfold coo_fromobject. intros H.
  destruct src as [v|[]]; try (split; [eapply B; exact H|right; eapply coo_build_made; exact H]; fail);
    destruct (is_default a);
    try (split; [eapply B; exact H|right; eapply coo_build_made; exact H]; fail).
  - injection H as <- <-. split; [exact I|left; auto].
  - split; [|right; eapply coo_of_flatcoo_made; exact H].
    unfold coo_of_flatcoo in H. apply bind_ok in H. destruct H as (l & _ & H).
    apply bind_ok in H. destruct H as ([i h1] & E1 & H). apply bind_ok in H. destruct H as ([d1 h2] & E2 & H).
    apply bind_ok in H. destruct H as (r & E3 & H). injection H as <- _. apply mk_coo_eq in E3. now subst r.
Qed.

Lemma flatcoo_fromobject_made h src a s h' : flatcoo_fromobject h src a = Ok (s, h') ->
  is_class CFlatCOO s /\ ((src = SrcSto s /\ is_default a = true /\ h' = h) \/ made h h' s).
Proof.
  assert (B : forall get sh su u, flatcoo_build get sh su u h = Ok (s, h') -> is_class CFlatCOO s).
  { intros get sh su u H. unfold flatcoo_build in H. apply bind_ok in H. destruct H as (vs & _ & H).
    apply bind_ok in H. destruct H as (fs & _ & H).
    apply bind_ok in H. destruct H as ([d h1] & E1 & H). apply bind_ok in H. destruct H as ([i h2] & E2 & H).
    apply bind_ok in H. destruct H as (r & E3 & H). injection H as <- _. apply mk_flatcoo_eq in E3. now subst r. }
  unfold flatcoo_fromobject. intros H.
  destruct src as [v|[]]; try (split; [eapply B; exact H|right; eapply flatcoo_build_made; exact H]; fail);
    destruct (is_default a);
    try (split; [eapply B; exact H|right; eapply flatcoo_build_made; exact H]; fail).
  - split; [|right; eapply flatcoo_of_coo_made; exact H].
    unfold flatcoo_of_coo in H. apply bind_ok in H. destruct H as (l & _ & H). apply bind_ok in H. destruct H as (fs & _ & H).
    apply bind_ok in H. destruct H as ([i h1] & E1 & H). apply bind_ok in H. destruct H as ([d1 h2] & E2 & H).
    apply bind_ok in H. destruct H as (r & E3 & H). injection H as <- _. apply mk_flatcoo_eq in E3. now subst r.
  - injection H as <- <-. split; [exact I|left; auto].
Qed.

Lemma flat_fromobject_made c h src a s h' : flat_fromobject c h src a = Ok (s, h') ->
  is_class c s /\ ((src = SrcSto s /\ is_default a = true /\ h' = h) \/ made h h' s).
Proof.
  destruct c; cbn [flat_fromobject]; intros H; try discriminate.
  - apply bind_ok in H. destruct H as ([b h1] & E & H). injection H as <- <-. split; [exact I|].
    apply buffer_fromobject_made in E. destruct E as [E|[E1 E2]]; [now left|right].
    constructor; [|intros []]. unfold addrs. cbn. intros x [<-|[]]. lia.
  - apply bind_ok in H. destruct H as ([b h1] & E & H). injection H as <- <-. split; [exact I|].
    apply strided_fromobject_made in E. destruct E as [E|[E1 E2]]; [now left|right].
    constructor; [|intros []]. unfold addrs. cbn. intros x [<-|[]]. lia.
  - now apply coo_fromobject_made.
  - now apply flatcoo_fromobject_made.
  - unfold csr_fromobject in H. apply bind_ok in H. destruct H as ([c h1] & E & H). destruct c; try discriminate.
    apply csr_of_coo_made in H. destruct H as [H C]. split; [exact C|]. right.
    apply coo_fromobject_extends, extends_length in E. eapply made_weaken; [exact E|apply le_n|exact H].
Qed.

Lemma dm_fromobject_gen_made is_buffer fo h src a dims part s h' :
  (forall h src a s h', is_default a = false -> fo h src a = Ok (s, h') -> made h h' s) ->
  dm_fromobject_gen is_buffer fo h src a dims part = Ok (s, h') -> is_class CDM s /\ made h h' s.
Proof.
  intros Hfo H. unfold dm_fromobject_gen in H.
  apply bind_ok in H. destruct H as (? & _ & H). apply bind_ok in H. destruct H as (? & _ & H).
  apply bind_ok in H. destruct H as (? & _ & H). apply bind_ok in H. destruct H as ([[? ?] ?] & _ & H).
  apply bind_ok in H. destruct H as ([st h1] & E & H). apply bind_ok in H. destruct H as (? & _ & H).
  apply bind_ok in H. destruct H as (r & Em & H). injection H as <- <-. apply mk_dm_eq in Em. destruct Em as (rsh & ->).
  split; [exact I|]. apply Hfo in E; [|reflexivity]. destruct E as [R A]. constructor; assumption.
Qed.

Lemma dm_fromobject_made h src a dims part c s h' : dm_fromobject h src a dims part c = Ok (s, h') ->
  is_class CDM s /\ made h h' s.
Proof.
  assert (F : forall c h src a s h', is_default a = false -> flat_fromobject c h src a = Ok (s, h') -> made h h' s).
  { intros c' h0 src0 a0 s0 h0' Ha H. apply flat_fromobject_made in H. destruct H as [_ [(_ & E & _)|H]]; [congruence|exact H]. }
  destruct c; cbn [dm_fromobject]; apply dm_fromobject_gen_made; try (apply F).
  intros h0 src0 a0 s0 h0' _ H. apply dm_fromobject_gen_made in H; [tauto|]. apply F.
Qed.

Lemma fromobject_made c h v a s h' : fromobject c h (SrcSeq v) a = Ok (s, h') -> is_class c s /\ made h h' s.
Proof.
  destruct c; cbn [fromobject]; try (intros H; apply dm_fromobject_made in H; exact H);
    intros H; apply flat_fromobject_made in H; destruct H as [C [(E & _)|H]]; try discriminate E; auto.
Qed.

(** x.as_C() returns x itself when x already is a C (never for DM and CSR). *)
Definition is_same_class (c : cls) (s : storage) : bool :=
  match c, s with
  | CBuffer, SBuffer _ | CStrided, SStrided _ | CCOO, SCOO _ _ _ | CFlatCOO, SFlatCOO _ _ _ => true
  | _, _ => false
  end.

Lemma as_storage_made c h s u t h' : as_storage c h s u = Ok (t, h') ->
  if is_same_class c s && match u with None => true | _ => false end then t = s /\ h' = h else made h h' t.
Proof.
  intros H. destruct (is_same_class c s && _) eqn:B.
  - apply andb_prop in B. destruct B as [B1 B2]. destruct u; [discriminate|].
    destruct c, s; try discriminate; cbn in H; injection H as <- <-; auto.
  - destruct c; cbn [as_storage] in H.
    7: { apply dm_fromobject_made in H. tauto. }
    6: discriminate H.
    5: { cbn [flat_fromobject] in H. unfold csr_fromobject in H. apply bind_ok in H. destruct H as ([c h1] & E & H).
         destruct c; try discriminate. apply csr_of_coo_made in H. destruct H as [H _].
         apply coo_fromobject_extends, extends_length in E. eapply made_weaken; [exact E|apply le_n|exact H]. }
    all: apply flat_fromobject_made in H; destruct H as [C [(E1 & E2 & E3)|H]]; [|exact H];
      injection E1 as ->; destruct u; [discriminate|]; destruct t; try contradiction; discriminate.
Qed.

Lemma copy_addrs : forall s h u t h', copy h s u = Ok (t, h') ->
  (length h <= data_addr t < length h')%nat /\ index_addrs t = index_addrs s.
Proof.
  induction s as [b|t|sh ind d|sh fi d|sh cr co d|sh ch a b c d|sh rd rsh rs ro d IH]; intros h u r h' H; cbn [copy] in H.
  - apply bind_ok in H. destruct H as ([b' h1] & E & H). injection H as <- <-. apply buf_copy_addr in E. cbn. split; [lia|reflexivity].
  - apply bind_ok in H. destruct H as ([b' h1] & E & H). injection H as <- <-. apply strided_copy_addr in E. cbn. split; [lia|reflexivity].
  - apply bind_ok in H. destruct H as ([b' h1] & E & H). apply bind_ok in H. destruct H as (x & X & H).
    injection H as <- <-. apply mk_coo_eq in X. subst x. apply buf_copy_addr in E. cbn. split; [lia|reflexivity].
  - apply bind_ok in H. destruct H as ([b' h1] & E & H). apply bind_ok in H. destruct H as (x & X & H).
    injection H as <- <-. apply mk_flatcoo_eq in X. subst x. apply buf_copy_addr in E. cbn. split; [lia|reflexivity].
  - apply bind_ok in H. destruct H as ([b' h1] & E & H). apply bind_ok in H. destruct H as (x & X & H).
    injection H as <- <-. apply mk_csr_eq in X. subst x. apply buf_copy_addr in E. cbn. split; [lia|reflexivity].
  - apply bind_ok in H. destruct H as ([b' h1] & E & H). do 4 (apply bind_ok in H; destruct H as (? & _ & H)).
    injection H as <- <-. apply buf_copy_addr in E. cbn. split; [lia|reflexivity].
  - apply bind_ok in H. destruct H as ([b' h1] & E & H). apply bind_ok in H. destruct H as (x & X & H).
    injection H as <- <-. apply mk_dm_eq in X. destruct X as (rsh' & ->). apply IH in E. exact E.
Qed.

(** ** Reads depend only on the lists of the array *)
Lemma cell_frame h h' a : nth_error h' a = nth_error h a -> cell h' a = cell h a.
Proof. unfold cell. now intros ->. Qed.

Lemma bsearch_ext d d' : (forall p, d p = d' p) -> forall fuel l r, bsearch fuel l r d = bsearch fuel l r d'.
Proof.
  intros E. induction fuel as [|n IH]; intros l r; cbn [bsearch]; [reflexivity|]. destruct (r <? l); [reflexivity|].
  rewrite E. destruct (d' _) as [c|]; cbn [bind]; [|reflexivity]. now rewrite !IH.
Qed.

Lemma buf_get_frame h h' b i : nth_error h' (baddr b) = nth_error h (baddr b) -> buf_get h' b i = buf_get h b i.
Proof. intros E. unfold buf_get. now rewrite (cell_frame h h'). Qed.
Lemma buf_int_frame h h' b i : nth_error h' (baddr b) = nth_error h (baddr b) -> buf_int h' b i = buf_int h b i.
Proof. intros E. unfold buf_int. now rewrite (buf_get_frame h h'). Qed.

Lemma strided_getitem_frame h h' t ix : nth_error h' (baddr (sdata t)) = nth_error h (baddr (sdata t)) ->
  strided_getitem h' t ix = strided_getitem h t ix.
Proof.
  intros E. unfold strided_getitem. destruct (normalize_index ix (sshape t)) as [nix|]; cbn [bind]; [|reflexivity].
  destruct (is_element_index nix (sshape t)).
  - destruct (get_position _ _ _); cbn [bind]; [|reflexivity]. now rewrite (buf_get_frame h h').
  - destruct (index_strided _ _ _ _) as [[[sh st] off]|]; cbn [bind]; [|reflexivity].
    unfold buf_slice, mk_buffer. now rewrite (cell_frame h h') by exact E.
Qed.
Lemma strided_int_frame h h' t ix : nth_error h' (baddr (sdata t)) = nth_error h (baddr (sdata t)) ->
  strided_int h' t ix = strided_int h t ix.
Proof. intros E. unfold strided_int. now rewrite (strided_getitem_frame h h'). Qed.

Lemma coo_diff_frame h h' t p js ix : nth_error h' (baddr (sdata t)) = nth_error h (baddr (sdata t)) ->
  coo_diff h' t p js ix = coo_diff h t p js ix.
Proof.
  intros E. induction js as [|j js IH]; cbn [coo_diff]; [reflexivity|]. rewrite (strided_int_frame h h') by exact E.
  destruct (strided_int _ _ _); cbn [bind]; [|reflexivity]. destruct (pyget ix j); cbn [bind]; [|reflexivity].
  now rewrite IH.
Qed.

Lemma flat_get_elem_frame h h' s ix : (forall a, In a (addrs s) -> nth_error h' a = nth_error h a) ->
  flat_get_elem h' s ix = flat_get_elem h s ix.
Proof.
  intros E. unfold flat_get_elem.
  assert (P : flat_data_position h' s ix = flat_data_position h s ix).
  { destruct s; cbn [flat_data_position]; try reflexivity.
    - unfold get_coo_position. destruct (pyget _ _); cbn [bind]; [|reflexivity]. apply bsearch_ext. intros p.
      apply coo_diff_frame, E. right. left. reflexivity.
    - destruct (get_position _ _ _); cbn [bind]; [|reflexivity]. unfold get_flatcoo_position. apply bsearch_ext. intros p.
      rewrite (buf_int_frame h h'); [reflexivity|]. apply E. right. left. reflexivity.
    - unfold get_csr_position. destruct ix as [|r [|c [|]]]; try reflexivity.
      rewrite !(buf_int_frame h h') by (apply E; right; left; reflexivity).
      destruct (buf_int h crow r); cbn [bind]; [|reflexivity]. destruct (buf_int h crow (r + 1)); cbn [bind]; [|reflexivity].
      apply bsearch_ext. intros p. rewrite (buf_int_frame h h'); [reflexivity|]. apply E. right. right. left. reflexivity. }
  rewrite P. destruct (flat_data_position h s ix) as [[p|]|]; cbn [bind]; try reflexivity.
  destruct s; cbn [data_buffer bind]; try reflexivity; apply buf_get_frame, E; left; reflexivity.
Qed.

Lemma getitem_val_frame : forall s h h' ix x h1, (forall a, In a (addrs s) -> nth_error h' a = nth_error h a) ->
  getitem h s ix = Ok (IVal x, h1) -> getitem h' s ix = Ok (IVal x, h').
Proof.
  induction s as [b|t|sh ind d|sh fi d|sh cr co d|sh ch a b c d|sh rd rsh rs ro d IH]; intros h h' ix x h1 E H.
  - cbn [getitem] in *. unfold buffer_getitem in *. apply bind_ok in H. destruct H as (r & H & H'). injection H' as -> _.
    apply bind_ok in H. destruct H as (i & Ei & H). rewrite Ei. cbn [bind]. destruct i; try discriminate.
    + rewrite (buf_get_frame h h') by (apply E; left; reflexivity). now rewrite H.
    + apply bind_ok in H. destruct H as (? & _ & H). discriminate.
  - cbn [getitem] in *. rewrite (strided_getitem_frame h h') by (apply E; left; reflexivity).
    apply bind_ok in H. destruct H as (r & H & H'). injection H' as -> _. now rewrite H.
  - cbn [getitem] in *. apply bind_ok in H. destruct H as (nix & En & H). rewrite En. cbn [bind].
    destruct (is_element_index nix _).
    + rewrite (flat_get_elem_frame h h') by exact E. apply bind_ok in H. destruct H as (v & Ev & H). rewrite Ev. now injection H as -> _.
    + apply bind_ok in H. destruct H as ([[? ?] ?] & _ & H). apply bind_ok in H. destruct H as (? & _ & H).
      apply bind_ok in H. destruct H as ([? ?] & _ & H). discriminate.
  - cbn [getitem] in *. apply bind_ok in H. destruct H as (nix & En & H). rewrite En. cbn [bind].
    destruct (is_element_index nix _).
    + rewrite (flat_get_elem_frame h h') by exact E. apply bind_ok in H. destruct H as (v & Ev & H). rewrite Ev. now injection H as -> _.
    + apply bind_ok in H. destruct H as ([[? ?] ?] & _ & H). apply bind_ok in H. destruct H as (? & _ & H).
      apply bind_ok in H. destruct H as ([? ?] & _ & H). discriminate.
  - cbn [getitem] in *. apply bind_ok in H. destruct H as (nix & En & H). rewrite En. cbn [bind].
    destruct (is_element_index nix _).
    + rewrite (flat_get_elem_frame h h') by exact E. apply bind_ok in H. destruct H as (v & Ev & H). rewrite Ev. now injection H as -> _.
    + apply bind_ok in H. destruct H as ([[? ?] ?] & _ & H). apply bind_ok in H. destruct H as (? & _ & H).
      apply bind_ok in H. destruct H as ([? ?] & _ & H). discriminate.
  - cbn [getitem] in *. apply bind_ok in H. destruct H as (nix & En & H). rewrite En. cbn [bind].
    destruct (is_element_index nix _).
    + rewrite (flat_get_elem_frame h h') by exact E. apply bind_ok in H. destruct H as (v & Ev & H). rewrite Ev. now injection H as -> _.
    + apply bind_ok in H. destruct H as ([[? ?] ?] & _ & H). apply bind_ok in H. destruct H as (? & _ & H).
      apply bind_ok in H. destruct H as ([? ?] & _ & H). discriminate.
  - cbn [getitem] in *. apply bind_ok in H. destruct H as (nix & En & H). rewrite En. cbn [bind].
    destruct (is_element_index nix _).
    + apply bind_ok in H. destruct H as (r & Er & H). rewrite Er. cbn [bind]. eapply IH; [|exact H]. exact E.
    + apply bind_ok in H. destruct H as (? & _ & H). apply bind_ok in H. destruct H as (? & _ & H).
      apply bind_ok in H. destruct H as ([[[? ?] ?] ?] & _ & H). apply bind_ok in H. destruct H as ([it ?] & _ & H).
      destruct it; [discriminate|]. apply bind_ok in H. destruct H as (? & _ & H). discriminate.
Qed.

Lemma get_elem_frame h h' s i x : (forall a, In a (addrs s) -> nth_error h' a = nth_error h a) ->
  get_elem h s i = Ok x -> get_elem h' s i = Ok x.
Proof.
  intros E H. unfold get_elem in *. apply bind_ok in H. destruct H as ([it h1] & H & Hx).
  destruct it; [|discriminate]. injection Hx as ->. now rewrite (getitem_val_frame s h h' _ _ _ E H).
Qed.

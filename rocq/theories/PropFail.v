(** C33, C35: the outcome of assigning any nested list to a slice.

    [s[ix] = v] visits the selected elements in order, and stops at the first one
    for which [v] has no value. *)
From Coq Require Import Sorting.Sorted Permutation ZifyBool.
From Verif Require Import Py SliceTools Basics Storage Spec SliceFacts IndexFacts
  CompressFacts ReduceFacts SolverFacts SolveFacts Repr ReprFacts ViewFacts BuildFacts SparseFacts
  ConvFacts FromFacts DMFacts ReadFacts MapFacts ChainFacts WriteFacts EffectFacts PropRead PropWrite.

(** * Specification *)

(** The order of the assignment: Strided visits the indices [j] of the slice in
    row-major order, the other classes visit the indices of the array in
    row-major order. *)
Definition earlier (s : storage) (ix : pyindex) (j k : list Z) : Prop :=
  match s with
  | SStrided _ => row_major_lt j k
  | _ => row_major_lt (source_index ix (shape_of s) j) (source_index ix (shape_of s) k)
  end.

(** [j] is an index of the slice whose element is stored in [s]. *)
Definition target (h : heap) (s : storage) (ix : pyindex) (j : list Z) : Prop :=
  in_box j (slice_shape ix (shape_of s)) /\ stored h s (source_index ix (shape_of s) j).

Definition written (h' : heap) (s : storage) (ix : pyindex) (v : pyval) (j : list Z) : Prop :=
  exists x, nested_at v j = Some x /\ get_elem h' s (source_index ix (shape_of s) j) = Ok x.

(** [lacks v j e]: following [j] into the list [v] comes to an index past the end
    (IndexError) or to something that is not a list (TypeError; AssertionError if
    the value itself is not a list). *)
Inductive lacks_inside : pyval -> list Z -> exn -> Prop :=
  | past_end l i j : zlen l <= i -> lacks_inside (VSeq l) (i :: j) IndexError
  | no_list v i j : (forall l, v <> VSeq l) -> lacks_inside v (i :: j) TypeError
  | inside l i j x e : 0 <= i -> nth_error l (Z.to_nat i) = Some x -> lacks_inside x j e -> lacks_inside (VSeq l) (i :: j) e.
Definition lacks (v : pyval) (j : list Z) (e : exn) : Prop :=
  match v with VSeq _ => lacks_inside v j e | _ => j <> [] /\ e = AssertionError end.

(** * Lemmas *)

Lemma nested_at_none v : forall j, Forall (fun x => 0 <= x) j -> nested_at v j = None -> exists e, seq_value v j = Raise e /\ lacks v j e.
Proof.
  intros j Hj H.
  assert (G : forall j, Forall (fun x => 0 <= x) j -> forall v, nested_at v j = None -> exists e, seq_get v j = Raise e /\ lacks_inside v j e).
  { clear. induction 1 as [|i j Hi Hj IH]; intros v H; cbn [nested_at seq_get] in *; [discriminate|].
    destruct v as [| | |l]; try (exists TypeError; split; [reflexivity|]; constructor; discriminate).
    destruct (i <? 0) eqn:Ei; [lia|]. unfold pyget. rewrite Ei, Ei.
    destruct (nth_error l (Z.to_nat i)) as [w|] eqn:En; cbn [bind].
    - destruct (IH w H) as (e & E & L). exists e. split; [exact E|]. now apply (inside l i j w).
    - exists IndexError. split; [reflexivity|]. constructor. apply nth_error_None in En. unfold zlen. lia. }
  unfold seq_value, lacks. destruct j as [|i j]; [discriminate|].
  destruct v as [| | |l]; try (exists AssertionError; now repeat split). now apply G.
Qed.

Lemma in_box_nonneg i sh : in_box i sh -> Forall (fun x => 0 <= x) i.
Proof. induction 1; constructor; [lia|assumption]. Qed.

Lemma write_loop_app {P} (w : heap -> P -> pyval -> outcome) value L1 : forall L2 h,
  write_loop w value (L1 ++ L2) h =
  match write_loop w value L1 h with (h', Ok _) => write_loop w value L2 h' | (h', Raise e) => (h', Raise e) end.
Proof.
  induction L1 as [|[j p] L1 IH]; intros L2 h; cbn [write_loop app]; [reflexivity|].
  destruct (get_value h value j) as [x|]; [|reflexivity]. destruct (w h p x) as [h' [?|?]]; [apply IH|reflexivity].
Qed.

(** The first index without a value. *)
Lemma first_missing {P} v (L : list (list Z * P)) :
  (forall j p, In (j, p) L -> exists x, nested_at v j = Some x)
  \/ exists L1 j p L2, L = L1 ++ (j, p) :: L2 /\ nested_at v j = None
       /\ forall k q, In (k, q) L1 -> exists x, nested_at v k = Some x.
Proof.
  induction L as [|[j p] L IH]; [left; intros j p []|].
  destruct (nested_at v j) as [x|] eqn:E.
  - destruct IH as [IH|(L1 & j0 & p0 & L2 & -> & E0 & IH)].
    + left. intros k q [H|H]; [injection H as <- <-; eauto|eauto].
    + right. exists ((j, p) :: L1), j0, p0, L2. split; [reflexivity|]. split; [exact E0|].
      intros k q [H|H]; [injection H as <- <-; eauto|eauto].
  - right. exists [], j, p, L. split; [reflexivity|]. split; [exact E|]. intros k q [].
Qed.

Lemma sorted_after {A} (R : A -> A -> Prop) L1 x L2 y : StronglySorted R (L1 ++ x :: L2) -> In y L2 -> R x y.
Proof.
  induction L1 as [|z L1 IH]; cbn [app]; intros Hs Hy; inversion Hs as [|? ? H1 H2]; subst; [|now apply IH].
  rewrite Forall_forall in H2. now apply H2.
Qed.

(** Assigning along a list of positions. *)
Lemma assign_in_order {P} h s ix v h' r (w : heap -> P -> pyval -> outcome) (L : list (list Z * P)) :
  setitem h s ix (SrcSeq v) = write_loop w (SrcSeq v) L h ->
  setitem h s ix (SrcSeq v) = (h', r) ->
  (forall j, (exists p, In (j, p) L) <-> target h s ix j) ->
  StronglySorted (fun e e' => earlier s ix (fst e) (fst e')) L ->
  (forall L1 L2, L = L1 ++ L2 -> (forall j p, In (j, p) L1 -> exists x, nested_at v j = Some x) ->
     exists h1, write_loop w (SrcSeq v) L1 h = (h1, Ok tt)
       /\ (forall j p, In (j, p) L1 -> written h1 s ix v j)
       /\ (forall j p, In (j, p) L2 -> get_elem h1 s (source_index ix (shape_of s) j)
                                      = get_elem h s (source_index ix (shape_of s) j))) ->
  (r = Ok tt /\ forall j, target h s ix j -> written h' s ix v j)
  \/ exists k e, r = Raise e /\ target h s ix k /\ nested_at v k = None /\ lacks v k e
       /\ forall j, target h s ix j ->
            (earlier s ix j k -> written h' s ix v j)
            /\ (~ earlier s ix j k -> get_elem h' s (source_index ix (shape_of s) j)
                                     = get_elem h s (source_index ix (shape_of s) j)).
Proof.
  intros Hrun Hset HL Hso Heff. rewrite Hrun in Hset. clear Hrun.
  assert (Anti : forall j k, earlier s ix j k -> earlier s ix k j -> False).
  { intros j k. unfold earlier. destruct s; intros H1 H2; eapply row_major_lt_irrefl; eapply row_major_lt_trans; eassumption. }
  assert (Irr : forall j, ~ earlier s ix j j) by (intros j H; exact (Anti j j H H)).
  destruct (first_missing v L) as [Hall|(L1 & k & p & L2 & -> & Hk & Hall)].
  - left. destruct (Heff L [] ltac:(now rewrite app_nil_r) Hall) as (h1 & E1 & E2 & _).
    rewrite E1 in Hset. injection Hset as <- <-. split; [reflexivity|]. intros j Hj. apply HL in Hj.
    destruct Hj as [q Hq]. eauto.
  - right. destruct (Heff L1 _ eq_refl Hall) as (h1 & E1 & E2 & E3).
    assert (Tk : target h s ix k) by (apply HL; exists p; apply in_or_app; right; now left).
    rewrite write_loop_app, E1 in Hset. cbn [write_loop] in Hset.
    destruct (nested_at_none v k (in_box_nonneg _ _ (proj1 Tk)) Hk) as (e & Ee & Le).
    cbn [get_value] in Hset. rewrite Ee in Hset. injection Hset as <- <-. exists k, e.
    split; [reflexivity|]. split; [exact Tk|]. split; [exact Hk|]. split; [exact Le|]. intros j Hj. apply HL in Hj. destruct Hj as [q Hq].
    apply in_app_or in Hq. destruct Hq as [Hq|Hq].
    + pose proof (sorted_before _ _ _ _ _ Hso Hq) as B. cbn [fst] in B. split; [eauto|contradiction].
    + split; [|intros _; now apply (E3 j q)]. intros B. exfalso. destruct Hq as [Hq|Hq].
      * injection Hq as <- _. exact (Irr k B).
      * pose proof (sorted_after _ _ _ _ _ Hso Hq) as B'. cbn [fst] in B'. exact (Anti _ _ B B').
Qed.

Lemma sorted_map {A B} (f : A -> B) (R : A -> A -> Prop) (Q : B -> B -> Prop) l :
  (forall x y, In x l -> In y l -> R x y -> Q (f x) (f y)) -> StronglySorted R l -> StronglySorted Q (map f l).
Proof.
  intros H S. induction S as [|x l S IH F]; cbn [map]; constructor.
  - apply IH. intros a b Ha Hb. apply H; now right.
  - apply Forall_forall. intros y Hy. apply in_map_iff in Hy. destruct Hy as (z & <- & Hz).
    rewrite Forall_forall in F. apply H; [now left|now right|now apply F].
Qed.

Lemma sorted_impl {A} (R Q : A -> A -> Prop) l :
  (forall x y, In x l -> In y l -> R x y -> Q x y) -> StronglySorted R l -> StronglySorted Q l.
Proof. intros H S. rewrite <- (map_id l). now apply (sorted_map (fun x => x) R Q). Qed.

Lemma sorted_unmap {A B} (f : A -> B) (Q : B -> B -> Prop) l :
  StronglySorted Q (map f l) -> StronglySorted (fun x y => Q (f x) (f y)) l.
Proof.
  induction l as [|x l IH]; cbn [map]; intros S; [constructor|]. inversion S as [|? ? S' F]; subst.
  constructor; [now apply IH|]. rewrite Forall_forall in F. apply Forall_forall. intros y Hy. apply F. now apply in_map.
Qed.

(** The positions come in the order of the source. *)
Lemma slice_iad_loop_sorted {P} (R : P -> P -> Prop) sh0 st0 sh sd off : forall (l L : list (list Z * P)),
  slice_iad_loop sh0 st0 sh sd off l = Ok L -> StronglySorted R (map snd l) -> StronglySorted R (map snd L).
Proof.
  assert (G : forall (l L : list (list Z * P)), slice_iad_loop sh0 st0 sh sd off l = Ok L -> incl (map snd L) (map snd l)).
  { induction l as [|[i p] l IH]; intros L E; cbn [slice_iad_loop] in E; [injection E as <-; apply incl_refl|].
    destruct (get_position i sh0 st0); cbn [bind] in E; [|discriminate].
    destruct (solve_index_data _ sh sd) as [o|]; cbn [bind] in E; [|discriminate].
    destruct (slice_iad_loop sh0 st0 sh sd off l) as [r|] eqn:El; cbn [bind] in E; [|discriminate].
    specialize (IH r eq_refl). destruct o as [six|]; injection E as <-; cbn [map snd].
    - intros x [H|H]; [now left|right; now apply IH].
    - intros x H. right. now apply IH. }
  induction l as [|[i p] l IH]; intros L E S; cbn [slice_iad_loop] in E; [injection E as <-; constructor|].
  destruct (get_position i sh0 st0); cbn [bind] in E; [|discriminate].
  destruct (solve_index_data _ sh sd) as [o|]; cbn [bind] in E; [|discriminate].
  destruct (slice_iad_loop sh0 st0 sh sd off l) as [r|] eqn:El; cbn [bind] in E; [|discriminate].
  cbn [map snd] in S. inversion S as [|? ? S' F]; subst. specialize (IH r eq_refl S').
  destruct o as [six|]; injection E as <-; [|exact IH]. cbn [map snd]. constructor; [exact IH|].
  apply Forall_forall. intros x Hx. rewrite Forall_forall in F. apply F. now apply (G l r El).
Qed.

Lemma slice_iad_sorted {P} (R : P -> P -> Prop) sh0 iad sh st off (l L : list (list Z * P)) :
  iad = Ok l -> slice_iad sh0 iad sh st off = Ok L -> StronglySorted R (map snd l) -> StronglySorted R (map snd L).
Proof.
  intros -> E. unfold slice_iad in E. destruct (init_diophantine st (Some sh)) as [sd|]; cbn [bind] in E; [|discriminate].
  now apply (slice_iad_loop_sorted R _ _ _ _ _ _ _ E).
Qed.

Lemma zseq_sorted n : StronglySorted Z.lt (zseq n).
Proof.
  unfold zseq. apply (sorted_map Z.of_nat lt); [intros; lia|].
  generalize 0%nat. induction (Z.to_nat n) as [|m IH]; intros a; cbn [seq]; constructor; [apply IH|].
  apply Forall_forall. intros x Hx. apply in_seq in Hx. lia.
Qed.

Lemma NoDup_app_l {A} (l m : list A) : NoDup (l ++ m) -> NoDup l.
Proof. induction l as [|x l IH]; cbn [app]; intros H; [constructor|]. inversion H; subst. constructor; [|auto]. intros K. apply H2. apply in_or_app. now left. Qed.

Lemma NoDup_app_disjoint {A} (l m : list A) x : NoDup (l ++ m) -> In x l -> In x m -> False.
Proof.
  induction l as [|y l IH]; cbn [app]; intros H Hx Hm; [destruct Hx|]. inversion H as [|? ? H1 H2]; subst.
  destruct Hx as [->|Hx]; [|now apply IH]. apply H1. apply in_or_app. now right.
Qed.

Definition nested_value (v : pyval) (j : list Z) : pyval := match nested_at v j with Some x => x | None => VNone end.

Lemma nested_value_reads v j h : (exists x, nested_at v j = Some x) -> get_value h (SrcSeq v) j = Ok (nested_value v j).
Proof. intros [x Hx]. cbn [get_value]. unfold nested_value. rewrite Hx. now apply nested_at_get. Qed.

Lemma written_intro h s ix v j : (exists x, nested_at v j = Some x) ->
  get_elem h s (source_index ix (shape_of s) j) = Ok (nested_value v j) -> written h s ix v j.
Proof. intros [x Hx] H. exists x. split; [exact Hx|]. rewrite H. unfold nested_value. now rewrite Hx. Qed.

Section Classes.
Context (h : heap) (ix : pyindex) (v : pyval) (h' : heap) (r : res unit).

Let outcome_ok (s : storage) : Prop :=
  (r = Ok tt /\ forall j, target h s ix j -> written h' s ix v j)
  \/ exists k e, r = Raise e /\ target h s ix k /\ nested_at v k = None /\ lacks v k e
       /\ forall j, target h s ix j ->
            (earlier s ix j k -> written h' s ix v j)
            /\ (~ earlier s ix j k -> get_elem h' s (source_index ix (shape_of s) j)
                                     = get_elem h s (source_index ix (shape_of s) j)).

Lemma strided_outcome t f : repr h (SStrided t) f -> positive (sshape t) -> ok_index ix (sshape t) ->
  setitem h (SStrided t) ix (SrcSeq v) = (h', r) -> outcome_ok (SStrided t).
Proof.
  intros Hr Hp Hok Hset. pose proof Hr as (l & Hl & Ht & Hf).
  pose proof (fun i => stored_dense h (SStrided t) f i Hr I) as Hst. cbn [shape_of] in Hst.
  assert (Hsrc : forall j, in_box j (slice_shape ix (sshape t)) -> in_box (source_index ix (sshape t) j) (sshape t))
    by (intros j Hj; now apply source_index_in_box).
  destruct (strided_positions t l ix Ht Hp Hok) as (L & EL & HL & Hnd & Hrng & Hfst).
  apply (assign_in_order h (SStrided t) ix v h' r (buf_write (sdata t)) L); auto.
  - now apply strided_setitem_run.
  - intros j. unfold target. cbn [shape_of]. rewrite Hst. split.
    + intros [p Hp']. apply HL in Hp'. destruct Hp' as [Hj _]. auto.
    + intros [Hj _]. exists (spos t (source_index ix (sshape t) j) - boff (sdata t)). apply HL. split; [exact Hj|lia].
  - cbn [earlier]. apply (sorted_unmap fst row_major_lt). rewrite Hfst. apply cart_sorted.
  - intros L1 L2 -> Hall. rewrite map_app in Hnd.
    destruct (write_loop_buf (sdata t) (SrcSeq v) (nested_value v) L1 h l Hl) as (l' & E1 & E2 & E3 & E4).
    + intros l'' _ _ j p Hin. apply nested_value_reads. eauto.
    + now apply NoDup_app_l in Hnd.
    + apply Forall_app in Hrng. apply Hrng.
    + pose proof (strided_relist h t l l' Hl Ht E2) as Hr'. eexists. split; [exact E1|]. split.
      * intros j p Hin. pose proof (proj1 (HL j p) (in_or_app _ _ _ (or_introl Hin))) as [Hj Ep].
        apply written_intro; [eauto|]. cbn [shape_of]. rewrite (repr_get _ (SStrided t) _ _ Hr' (Hsrc j Hj)).
        rewrite <- Ep. f_equal. now apply E3.
      * intros j p Hin. pose proof (proj1 (HL j p) (in_or_app _ _ _ (or_intror Hin))) as [Hj Ep]. cbn [shape_of].
        rewrite (repr_get _ (SStrided t) _ _ Hr' (Hsrc j Hj)), (repr_get _ (SStrided t) _ _ Hr (Hsrc j Hj)), (Hf _ (Hsrc j Hj)).
        f_equal. rewrite <- Ep. apply E4; [rewrite Ep; apply (so_pos _ _ Ht _ (Hsrc j Hj))|].
        intros k q Hk Eq. assert (p = q) as <- by lia.
        apply (NoDup_app_disjoint _ _ p Hnd); now apply (in_map snd) in Hk, Hin.
Qed.

Lemma sparse_outcome s f : repr h s f -> is_sparse s -> positive (shape_of s) -> ok_index ix (shape_of s) ->
  slice_shape ix (shape_of s) <> [] ->
  setitem h s ix (SrcSeq v) = (h', r) -> outcome_ok s.
Proof.
  intros Hr Hs Hp Hok Hne Hset. destruct (sparse_entries h s f Hr Hs) as (E & HE & Hf).
  pose proof (fun i => stored_sparse h s E i HE Hp) as Hst.
  assert (Hsrc : forall j, in_box j (slice_shape ix (shape_of s)) -> in_box (source_index ix (shape_of s) j) (shape_of s))
    by (intros j Hj; now apply source_index_in_box).
  pose proof (entries_ordered h s E HE) as Ho.
  destruct (sparse_positions h s E ix HE Hp Hok Hne) as (L & d & EL & Ed & HL & Hnd).
  destruct (entries_data h s E HE) as (d0 & Ed0 & (l & Hl & _) & _ & Ha).
  rewrite Ed in Ed0. injection Ed0 as <-.
  assert (Hrng : Forall (fun e => 0 <= boff d + snd e < zlen l) L).
  { apply Forall_forall. intros [j p] Hin. apply HL in Hin. destruct Hin as [_ Hin].
    apply In_numbered in Hin. cbn [snd]. now apply (entries_range h s E d l HE Ed Hl). }
  apply (assign_in_order h s ix v h' r (buf_write d) L); auto.
  - exact (sparse_setitem_run h s ix (SrcSeq v) d L Hs (entries_separate h s E HE) EL).
  - intros j. unfold target. rewrite Hst, <- numbered_fst. split.
    + intros [p Hin]. apply HL in Hin. destruct Hin as [Hj Hin]. split; [exact Hj|]. now apply (in_map fst) in Hin.
    + intros [Hj Hin]. apply in_map_iff in Hin. destruct Hin as ([i p] & Ei & Hin). cbn in Ei. subst i.
      exists p. now apply HL.
  - assert (S : StronglySorted Z.lt (map snd L)).
    { destruct (normalize_index ix (shape_of s)) as [nix|]; cbn [bind] in EL; [|discriminate].
      destruct (index_strided _ _ _ _) as [[[sh' st'] off']|]; cbn [bind] in EL; [|discriminate].
      rewrite Ed in EL. cbn [bind] in EL. destruct (slice_iad _ _ _ _ _) as [L'|] eqn:Es; cbn [bind] in EL; [|discriminate].
      injection EL as ->. apply (slice_iad_sorted Z.lt _ _ _ _ _ _ _ (sparse_iad_ok h s E HE Hp) Es).
      unfold numbered. rewrite map_map. cbn [snd]. rewrite map_id. apply zseq_sorted. }
    apply sorted_unmap in S. revert S. apply sorted_impl. intros [j p] [k q] Hj Hk Hlt. cbn [fst snd] in *.
    apply HL in Hj, Hk. destruct Hj as [_ Hj]. destruct Hk as [_ Hk]. apply In_numbered in Hj, Hk.
    assert (X : row_major_lt (source_index ix (shape_of s) j) (source_index ix (shape_of s) k)).
    { rewrite (proj2 Hj), (proj2 Hk). apply (ordered_nth (shape_of s)); unfold zlen in *; [exact Ho|lia|lia]. }
    destruct s; try contradiction; exact X.
  - intros L1 L2 -> Hall. rewrite map_app in Hnd.
    destruct (write_loop_buf d (SrcSeq v) (nested_value v) L1 h l Hl) as (l' & E1 & E2 & E3 & E4).
    + intros l'' _ _ j p Hin. apply nested_value_reads. eauto.
    + now apply NoDup_app_l in Hnd.
    + apply Forall_app in Hrng. apply Hrng.
    + destruct (entries_relist h s E l l' HE ltac:(rewrite <- Ha; exact Hl) E2) as (d1 & Ed1 & HE').
      rewrite Ed in Ed1. injection Ed1 as <-. rewrite <- Ha in HE'.
      pose proof (repr_of_entries _ _ _ HE') as Hr'. eexists. split; [exact E1|].
      assert (K : forall j p, In (j, p) (L1 ++ L2) -> in_box j (slice_shape ix (shape_of s)) /\ 0 <= p < zlen E
                    /\ source_index ix (shape_of s) j = fst (nth (Z.to_nat p) E ([], VNone))).
      { intros j p Hin. apply HL in Hin. destruct Hin as [Hj Hin]. apply In_numbered in Hin. tauto. }
      split.
      * intros j p Hin. destruct (K j p (in_or_app _ _ _ (or_introl Hin))) as (Hj & Hpz & Ej).
        apply written_intro; [eauto|]. rewrite (repr_get _ s _ _ Hr' (Hsrc j Hj)).
        f_equal. rewrite (revalue_lookup _ (boff d) l' E _ _ p Ho Hpz Ej). now apply E3.
      * intros j p Hin. destruct (K j p (in_or_app _ _ _ (or_intror Hin))) as (Hj & Hpz & Ej).
        rewrite (repr_get _ s _ _ Hr' (Hsrc j Hj)), (repr_get _ s _ _ Hr (Hsrc j Hj)), (Hf _ (Hsrc j Hj)).
        f_equal. rewrite Ej. apply (sparse_rewrite h s E d l l' _ HE Ed Hl p Hpz).
        apply E4; [apply (entries_range h s E d l HE Ed Hl p Hpz)|].
        intros k q Hk Eq. assert (p = q) as <- by lia.
        apply (NoDup_app_disjoint _ _ p Hnd); now apply (in_map snd) in Hk, Hin.
Qed.

Lemma dm_outcome sh rd rsh rs ro d f : repr h (SDM sh rd rsh rs ro d) f -> elem_data d ->
  positive sh -> ok_index ix sh -> slice_shape ix sh <> [] ->
  setitem h (SDM sh rd rsh rs ro d) ix (SrcSeq v) = (h', r) -> outcome_ok (SDM sh rd rsh rs ro d).
Proof.
  intros Hr He Hp Hok Hne Hset. set (s := SDM sh rd rsh rs ro d) in *. pose proof Hr as (g & Hg & Hd & Hf).
  pose proof (fun i => stored_dense h s f i Hr I) as Hst. cbn [s shape_of] in Hst.
  assert (Hsrc : forall j, in_box j (slice_shape ix sh) -> in_box (source_index ix sh j) sh)
    by (intros j Hj; now apply source_index_in_box).
  destruct (dm_positions _ _ _ _ _ _ ix Hd Hp Hok Hne) as (L & EL & HL & Hnd & Hb).
  apply (assign_in_order h s ix v h' r (fun h r v => setitem h d (int_tuple r) (SrcSeq v)) L); auto.
  - now apply dm_setitem_run.
  - intros j. unfold target. cbn [s shape_of]. rewrite Hst. split.
    + intros [p Hin]. apply HL in Hin. destruct Hin as [Hj _]. auto.
    + intros [Hj _]. eexists. apply HL. auto.
  - set (R := fun p q => forall i k, in_box i sh -> in_box k sh -> p = dm_index rd rs ro i -> q = dm_index rd rs ro k -> row_major_lt i k).
    assert (S : StronglySorted R (map snd L)).
    { destruct (normalize_index ix sh) as [nix|]; cbn [bind] in EL; [|discriminate].
      destruct (index_strided _ _ _ _) as [[[sh' st'] off']|]; cbn [bind] in EL; [|discriminate].
      apply (slice_iad_sorted R _ _ _ _ _ _ _ (dm_iad_ok _ _ _ _ _ _ Hd) EL).
      rewrite map_map. cbn [snd]. apply (sorted_map _ row_major_lt); [|apply cart_sorted].
      intros i k Hi Hk Hlt i' k' Hi' Hk' Ei Ek. apply In_cart in Hi, Hk.
      apply (dm_inj _ _ _ _ _ _ Hd) in Ei, Ek; auto. now subst. }
    apply sorted_unmap in S. revert S. apply sorted_impl. intros [j p] [k q] Hj Hk Hlt. cbn [fst snd] in *.
    apply HL in Hj, Hk. destruct Hj as [Bj ->]. destruct Hk as [Bk ->]. unfold earlier, s. cbn [shape_of].
    apply Hlt; auto.
  - intros L1 L2 -> Hall. rewrite map_app in Hnd. apply Forall_app in Hb. destruct Hb as [Hb1 Hb2].
    destruct (dm_write_loop d (SrcSeq v) (nested_value v) He L1 h g Hg) as (h1 & g' & E1 & E2 & E3 & E4 & E5).
    + intros h'' _ j p Hin. apply nested_value_reads. eauto.
    + now apply NoDup_app_l in Hnd.
    + exact Hb1.
    + assert (Hr' : repr h1 s (fun i => g' (dm_index rd rs ro i))) by (exists g'; split; [exact E3|now split]).
      eexists. split; [exact E1|]. split.
      * intros j p Hin. pose proof (proj1 (HL j p) (in_or_app _ _ _ (or_introl Hin))) as [Hj Ep].
        apply written_intro; [eauto|]. cbn [s shape_of]. rewrite (repr_get _ s _ _ Hr' (Hsrc j Hj)).
        f_equal. rewrite <- Ep. now apply E4.
      * intros j p Hin. pose proof (proj1 (HL j p) (in_or_app _ _ _ (or_intror Hin))) as [Hj Ep]. cbn [s shape_of].
        rewrite (repr_get _ s _ _ Hr' (Hsrc j Hj)), (repr_get _ s _ _ Hr (Hsrc j Hj)), (Hf _ (Hsrc j Hj)).
        f_equal. rewrite <- Ep. apply E5. intros Hk.
        apply (NoDup_app_disjoint _ _ p Hnd); [exact Hk|]. now apply (in_map snd) in Hin.
Qed.
End Classes.

(** * C35 *)

(** Whatever nested list is assigned: either it has a value for every selected
    stored element, nothing is raised and all of them are written; or it lacks
    one, the exception says why ([lacks]), the selected elements that come before the
    first one without a value are written and all the others keep their value
    (elements outside the selection: C35_failed_assignment_partial). *)
Theorem C35_outcome_partial : forall h s ix v h' r,
  valid h s -> slice_writes s -> positive (shape_of s) ->
  ok_index ix (shape_of s) -> slice_shape ix (shape_of s) <> [] ->
  setitem h s ix (SrcSeq v) = (h', r) ->
  (r = Ok tt /\ forall j, target h s ix j -> written h' s ix v j)
  \/ exists k e, r = Raise e /\ target h s ix k /\ nested_at v k = None /\ lacks v k e
       /\ forall j, target h s ix j ->
            (earlier s ix j k -> written h' s ix v j)
            /\ (~ earlier s ix j k -> get_elem h' s (source_index ix (shape_of s) j)
                                     = get_elem h s (source_index ix (shape_of s) j)).
Proof.
  intros h s ix v h' r [f Hr] Hc Hp Hok Hne Hset.
  destruct s; cbn in Hc; try contradiction.
  - now apply (strided_outcome h ix v h' r s f).
  - now apply (sparse_outcome h ix v h' r _ f Hr).
  - now apply (sparse_outcome h ix v h' r _ f Hr).
  - now apply (sparse_outcome h ix v h' r _ f Hr).
  - apply (dm_outcome h ix v h' r _ _ _ _ _ _ f); auto.
Qed.
Print Assumptions C35_outcome_partial.

(** s = X.fromobject([[1, 2, 3], [4, 5, 6]]); s[::-1] = [[7, 8, 9], [0]] raises
    IndexError.  Strided writes the last row and one element of the first; the
    other classes visit the first row first. *)
Example C35_outcome_case : forall c, In c [CStrided; CCOO; CFlatCOO; CCSR; CDM] ->
  ('(s, h) <- fromobject c [] (SrcSeq (VSeq [VSeq [VInt 1; VInt 2; VInt 3]; VSeq [VInt 4; VInt 5; VInt 6]])) fo_default ;;
   let '(h2, r) := setitem h s (XItem (ISlice (Sl None None (Some (-1)))))
                     (SrcSeq (VSeq [VSeq [VInt 7; VInt 8; VInt 9]; VSeq [VInt 0]])) in
   e <- elements h2 s ;; Ok (r, map snd e))
  = Ok (Raise IndexError, match c with
                          | CStrided => [VInt 0; VInt 2; VInt 3; VInt 7; VInt 8; VInt 9]
                          | _ => [VInt 0; VInt 2; VInt 3; VInt 4; VInt 5; VInt 6]
                          end).
Proof. intros c [<-|[<-|[<-|[<-|[<-|[]]]]]]; vm_compute; reflexivity. Qed.

(** * C33 for DM over a sparse class or over DM *)

(** The elements an element assignment overwrites: they depend on the index
    lists only. *)
Lemma overwrite_loop d h (S : list Z -> bool) : (forall h1, updated (data_addr d) h h1 -> forall r x, in_box r (shape_of d) ->
     exists h2, setitem h1 d (int_tuple r) (SrcSeq x) = (h2, Ok tt)
       /\ repr h2 d (fun i => if S i then x else unspecified_of d)) ->
  forall value val L h1 f1, updated (data_addr d) h h1 -> repr h1 d f1 ->
  (forall h'', updated (data_addr d) h h'' -> forall vi p, In (vi, p) L -> get_value h'' value vi = Ok (val vi)) ->
  Forall (fun e => in_box (snd e) (shape_of d)) L ->
  exists h2, write_loop (fun h r x => setitem h d (int_tuple r) (SrcSeq x)) value L h1 = (h2, Ok tt)
    /\ updated (data_addr d) h h2
    /\ repr h2 d (match L with [] => f1 | _ => fun i => if S i then val (fst (last L ([], []))) else unspecified_of d end).
Proof.
  intros HS value val. induction L as [|[vi p] L IH]; intros h1 f1 Hu Hr Hv Hb; cbn [write_loop].
  - exists h1. auto.
  - inversion Hb as [|? ? B1 B2]; subst. cbn [snd] in B1. rewrite (Hv h1 Hu vi p (or_introl eq_refl)).
    destruct (HS h1 Hu p (val vi) B1) as (h2 & E1 & E2). rewrite E1.
    assert (Hu2 : updated (data_addr d) h h2).
    { eapply updated_trans; [exact Hu|]. pose proof (setitem_frame d h1 (int_tuple p) (SrcSeq (val vi))) as F.
      now rewrite E1 in F. }
    destruct (IH h2 _ Hu2 E2) as (h3 & F1 & F2 & F3); [|exact B2|].
    + intros h'' Hu'' v2 p2 Hin. apply (Hv h'' Hu'' v2 p2). now right.
    + exists h3. split; [exact F1|]. split; [exact F2|]. destruct L as [|e L]; exact F3.
Qed.

Lemma overwrite_set : forall d h f, repr h d f -> is_sparse d \/ is_dm d -> positive (shape_of d) ->
  exists S : list Z -> bool, (forall i, in_box i (shape_of d) -> S i = true <-> placed h d i)
    /\ (forall i, in_box i (shape_of d) -> S i = false -> f i = unspecified_of d)
    /\ forall h1, updated (data_addr d) h h1 -> forall ix x, ok_index ix (shape_of d) -> slice_shape ix (shape_of d) = [] ->
         exists h2, setitem h1 d ix (SrcSeq x) = (h2, Ok tt)
           /\ repr h2 d (fun i => if S i then x else unspecified_of d).
Proof.
  assert (G : forall d h f, repr h d f -> is_sparse d -> positive (shape_of d) ->
    exists S : list Z -> bool, (forall i, in_box i (shape_of d) -> S i = true <-> placed h d i)
    /\ (forall i, in_box i (shape_of d) -> S i = false -> f i = unspecified_of d)
    /\ forall h1, updated (data_addr d) h h1 -> forall ix x, ok_index ix (shape_of d) -> slice_shape ix (shape_of d) = [] ->
         exists h2, setitem h1 d ix (SrcSeq x) = (h2, Ok tt)
           /\ repr h2 d (fun i => if S i then x else unspecified_of d)).
  { intros d h f Hr Hs Hp. destruct (sparse_entries h d f Hr Hs) as (E & HE & Hf).
    exists (fun i => if in_dec (list_eq_dec Z.eq_dec) i (map fst E) then true else false). split; [|split].
    - intros i Hi. assert (Ep : placed h d i <-> stored h d i) by (destruct d; try contradiction; reflexivity).
      rewrite Ep, (stored_sparse h d E i HE Hp). destruct (in_dec _ _ _); split; auto; discriminate.
    - intros i Hi. destruct (in_dec _ _ _) as [Hin|Hin]; [discriminate|]. intros _. rewrite (Hf i Hi). now apply lookup_absent.
    - intros h1 Hu ix x Hok Hnil.
      assert (HE1 : exists E1, entries h1 d E1 /\ map fst E1 = map fst E).
      { destruct (entries_data h d E HE) as (b & Ed & (l & Hl & _) & _ & Ha). rewrite Ha in Hl.
        destruct (up_cell _ _ _ Hu l Hl) as (l' & Hl' & Hlen).
        destruct (entries_relist h d E l l' HE Hl Hlen) as (d' & _ & HE').
        eexists. split; [|apply revalue_fst]. eapply entries_frame; [|exact HE']. intros a Ha'.
        destruct (Nat.eq_dec a (data_addr d)) as [->|Hb'].
        + rewrite Hl'. symmetry. apply set_nth_error_same. apply nth_error_Some. congruence.
        + rewrite (up_other _ _ _ Hu) by exact Hb'. symmetry. now apply set_nth_error_other. }
      destruct HE1 as (E1 & HE1 & Ek).
      destruct (sparse_write_element h1 d E1 ix x HE1 Hp Hok Hnil) as (l' & F1 & F2).
      eexists. split; [exact F1|]. eapply repr_ext; [|exact (repr_of_entries _ _ _ F2)].
      intros i _. rewrite <- Ek. destruct (in_dec _ _ _) as [Hin|Hin].
      + now apply lookup_map_snd_in.
      + now apply lookup_map_snd_out. }
  induction d as [b|t|sh ind d|sh fi d|sh cr co d|sh ch a b c d|sh rd rsh rs ro d IH];
    intros h f Hr Hc Hp; try (exfalso; cbn in Hc; tauto); try (apply (G _ h f Hr I Hp)).
  clear G. cbn [shape_of unspecified_of data_addr] in *. pose proof Hr as (g & Hg & Hdm & Hf).
  destruct (elem_data_cases d h g Hg) as [Hd|Hd].
  { exists (fun _ => true). split; [intros i _; destruct d; try contradiction; cbn; tauto|]. split; [discriminate|]. intros h1 Hu ix x Hok Hnil.
    destruct (valid_updated d h h1 (data_addr d) (ex_intro _ g Hg) Hu) as [g1 Hg1].
    { destruct d; try contradiction; intros []. }
    apply (dm_write_element h1 sh rd rsh rs ro d (fun i => g1 (dm_index rd rs ro i)) ix x); auto.
    exists g1. auto. }
  destruct (dm_rank _ _ _ _ _ _ Hdm Hp) as [Hrank Hpd].
  destruct (IH h g Hg Hd Hpd) as (S & HS0 & HS1 & HS2).
  exists (fun i => S (dm_index rd rs ro i)). split.
  { intros i Hi. cbn [placed]. apply HS0. now apply (dm_box _ _ _ _ _ _ Hdm). }
  split.
  { intros i Hi HSi. rewrite (Hf i Hi). apply HS1; [now apply (dm_box _ _ _ _ _ _ Hdm)|exact HSi]. }
  intros h1 Hu ix x Hok Hnil. pose proof Hok as [Hitems _].
  set (nix := norm_items (index_items ix) sh).
  assert (Hn : normal_index nix sh) by now apply norm_items_normal.
  assert (Es : n_shape nix sh = []) by (rewrite <- Hnil; now apply norm_items_shape).
  erewrite dm_setitem_run.
  2:{ rewrite normalize_index_ok by assumption. fold nix. cbn [bind].
      rewrite index_strided_ok; [|assumption|assumption|apply make_strides_length]. cbn [bind]. rewrite Z.add_0_l.
      rewrite (dm_iad_ok _ _ _ _ _ _ Hdm), Es.
      rewrite (element_strides nix sh (make_strides sh) Es (make_strides_length sh)).
      apply slice_iad_empty.
      apply Forall_forall. intros e Hin. apply in_map_iff in Hin. destruct Hin as (i & <- & Hi).
      apply In_cart in Hi. now apply in_box_len. }
  set (L := map _ _).
  destruct (valid_updated d h h1 (data_addr d) (ex_intro _ g Hg) Hu) as [g1 Hg1].
  { exact (repr_data_index d h g Hg). }
  destruct (overwrite_loop d h S) with (value := SrcSeq x) (val := fun _ : list Z => x) (L := L) (h1 := h1) (f1 := g1)
    as (h2 & E1 & E2 & E3); auto.
  - intros h0 H0 r y Hb. apply HS2; auto; [now apply int_tuple_ok, in_box_len|now apply int_tuple_shape, in_box_len].
  - intros h'' _ vi p Hin. unfold L in Hin. rewrite map_map in Hin. apply in_map_iff in Hin.
    destruct Hin as (i & Ei & _). injection Ei as <- _. reflexivity.
  - unfold L. rewrite map_map. apply Forall_forall. intros e Hin. apply in_map_iff in Hin.
    destruct Hin as (i & <- & Hi). apply In_cart in Hi. cbn [snd]. now apply (dm_box _ _ _ _ _ _ Hdm).
  - exists h2. split; [exact E1|]. eexists. split; [exact E3|]. split; [exact Hdm|]. intros i Hi. cbn beta.
    destruct L as [|e L'] eqn:EL; [|reflexivity]. exfalso. unfold L in EL. rewrite map_map in EL. apply map_eq_nil in EL.
    apply In_cart in Hi. rewrite EL in Hi. destruct Hi.
Qed.

(** Exactly what an element assignment does to a sparse or DM array, whatever
    the data of the DM array: every element that has a place in the data becomes
    [v], every other one keeps reading the unspecified value. *)
Theorem C32_exactly : forall h s ix v,
  valid h s -> is_sparse s \/ is_dm s ->
  positive (shape_of s) -> ok_index ix (shape_of s) -> slice_shape ix (shape_of s) = [] ->
  exists h', setitem h s ix (SrcSeq v) = (h', Ok tt) /\ valid h' s
    /\ forall j, in_box j (shape_of s) ->
         (placed h s j -> get_elem h' s j = Ok v)
         /\ (~ placed h s j -> get_elem h s j = Ok (unspecified_of s) /\ get_elem h' s j = Ok (unspecified_of s)).
Proof.
  intros h s ix v [f Hr] Hs Hp Hok Hnil.
  destruct (overwrite_set s h f Hr Hs Hp) as (S & HS0 & HS1 & HS2).
  destruct (HS2 h (updated_refl _ _) ix v Hok Hnil) as (h' & E1 & E2).
  exists h'. split; [exact E1|]. split; [eexists; exact E2|]. intros j Hj.
  rewrite (repr_get h' s _ j E2 Hj), (repr_get h s f j Hr Hj). specialize (HS0 j Hj). specialize (HS1 j Hj).
  destruct (S j).
  - pose proof (proj1 HS0 eq_refl). tauto.
  - rewrite HS1 by reflexivity. split; [|auto]. intros X. apply HS0 in X. discriminate.
Qed.
Print Assumptions C32_exactly.

(** s = DM.fromobject([[1, None], [3, None]], storage_class=COO); s[0, 1] = 9: the two elements
    with a place are 9, the assigned one is not. *)
Example C32_exactly_case : forall c, In c [CCOO; CFlatCOO; CCSR] ->
  exists s h, dm_fromobject [] (SrcSeq (VSeq [VSeq [VInt 1; VNone]; VSeq [VInt 3; VNone]])) fo_default None None c = Ok (s, h)
    /\ (let '(h2, r) := setitem h s (int_tuple [0; 1]) (SrcSeq (VInt 9)) in
        _ <- r ;; mapM (get_elem h2 s) (cart [2; 2])) = Ok [VInt 9; VNone; VInt 9; VNone]
    /\ (exists d, (match s with SDM _ _ _ _ _ d0 => d0 = d | _ => False end) /\ is_sparse d
         /\ forall l, elements h d = Ok l -> map fst l = [KTup [0; 0]; KTup [1; 0]] \/ map fst l = [KTup [0]; KTup [2]]).
Proof.
  intros c [<-|[<-|[<-|[]]]]; (eexists _, _; split; [vm_compute; reflexivity|]; split; [vm_compute; reflexivity|];
    eexists; split; [reflexivity|]; split; [exact I|]; intros l El; vm_compute in El; injection El as <-; auto).
Qed.

(** Reading an element back right after assigning it, on every sparse and DM
    array: the value assigned if the element has a place in the data, the
    unspecified value if not. *)
Theorem C34_exactly : forall h s ix v,
  valid h s -> is_sparse s \/ is_dm s ->
  positive (shape_of s) -> ok_index ix (shape_of s) -> slice_shape ix (shape_of s) = [] ->
  exists h' x, setitem h s ix (SrcSeq v) = (h', Ok tt) /\ getitem h' s ix = Ok (IVal x, h')
    /\ (placed h s (source_index ix (shape_of s) []) -> x = v)
    /\ (~ placed h s (source_index ix (shape_of s) []) -> x = unspecified_of s).
Proof.
  intros h s ix v [f Hr] Hs Hp Hok Hnil.
  assert (Hi : in_box (source_index ix (shape_of s) []) (shape_of s)).
  { apply source_index_in_box; auto. rewrite Hnil. constructor. }
  destruct (overwrite_set s h f Hr Hs Hp) as (S & HS0 & HS1 & HS2).
  destruct (HS2 h (updated_refl _ _) ix v Hok Hnil) as (h' & E1 & E2).
  exists h', (if S (source_index ix (shape_of s) []) then v else unspecified_of s). split; [exact E1|].
  split.
  - rewrite (getitem_element s h' _ ix E2 Hp Hok Hnil); [reflexivity|]. intros b ->. destruct Hs; contradiction.
  - specialize (HS0 _ Hi). destruct (S _); [pose proof (proj1 HS0 eq_refl); tauto|].
    split; [|auto]. intros X. apply HS0 in X. discriminate.
Qed.
Print Assumptions C34_exactly.

(** On DM over a sparse class or over DM a slice assignment is wrong in a
    definite way: every specified element of the array, selected or not, becomes
    the value of the last selected element ([k], in the row-major order of the
    array).  The elements that have no place in the data keep reading the
    unspecified value. *)
Theorem C33_last_value_everywhere : forall h sh rd rsh rs ro d ix value k x,
  let s := SDM sh rd rsh rs ro d in
  valid h s -> is_sparse d \/ is_dm d -> positive sh ->
  ok_index ix sh -> slice_shape ix sh <> [] ->
  separate h value (data_addr s) ->
  (forall j, in_box j (slice_shape ix sh) -> exists y, value_at h value j y) ->
  in_box k (slice_shape ix sh) ->
  (forall j, in_box j (slice_shape ix sh) -> j <> k -> row_major_lt (source_index ix sh j) (source_index ix sh k)) ->
  value_at h value k x ->
  exists h', setitem h s ix value = (h', Ok tt) /\ valid h' s
    /\ forall i y, in_box i sh -> get_elem h s i = Ok y ->
         (y <> unspecified_of s -> placed h s i)
         /\ (placed h s i -> get_elem h' s i = Ok x)
         /\ (~ placed h s i -> get_elem h' s i = Ok y).
Proof.
  intros h sh rd rsh rs ro d ix value k x s [f Hr] Hd Hp Hok Hne Hsep Hval Hk Hlast Hx.
  pose proof Hr as (g & Hg & Hdm & Hf). cbn [s data_addr] in Hsep.
  destruct (dm_rank _ _ _ _ _ _ Hdm Hp) as [Hrank Hpd].
  destruct (dm_positions _ _ _ _ _ _ ix Hdm Hp Hok Hne) as (L & EL & HL & Hnd & Hb).
  destruct (overwrite_set d h g Hg Hd Hpd) as (S & HS0 & HS1 & HS2).
  destruct (overwrite_loop d h S) with (value := value) (val := value_fun h value) (L := L) (h1 := h) (f1 := g)
    as (h2 & E1 & E2 & E3); auto using updated_refl.
  - intros h0 H0 r y Hbr. apply HS2; auto; [now apply int_tuple_ok, in_box_len|now apply int_tuple_shape, in_box_len].
  - intros h'' Hu j p Hin. apply HL in Hin. destruct Hin as [Hj _]. destruct (Hval j Hj) as [y Hy].
    rewrite (value_fun_eq _ _ _ _ Hy). eapply value_reads; [exact Hsep|exact Hy|]. apply (up_other _ _ _ Hu).
  - assert (K : L <> [] /\ fst (last L ([], [])) = k).
    { assert (Hin : In (k, dm_index rd rs ro (source_index ix sh k)) L) by now apply HL.
      assert (Hn0 : L <> []) by (intros ->; destruct Hin). split; [exact Hn0|].
      destruct (exists_last Hn0) as (L0 & e & EL0). rewrite EL0, last_last.
      destruct (list_eq_dec Z.eq_dec (fst e) k) as [Ek|Ek]; [exact Ek|]. exfalso.
      assert (He : In e L) by (rewrite EL0; apply in_or_app; right; now left). destruct e as [j p]. cbn [fst] in Ek.
      apply HL in He. destruct He as [Hj _]. pose proof (Hlast j Hj Ek) as B.
      assert (So : StronglySorted (fun e e' => earlier s ix (fst e) (fst e')) L).
      { set (R := fun p q => forall i k, in_box i sh -> in_box k sh -> p = dm_index rd rs ro i -> q = dm_index rd rs ro k -> row_major_lt i k).
        assert (So : StronglySorted R (map snd L)).
        { destruct (normalize_index ix sh) as [nix|]; cbn [bind] in EL; [|discriminate].
          destruct (index_strided _ _ _ _) as [[[sh' st'] off']|]; cbn [bind] in EL; [|discriminate].
          apply (slice_iad_sorted R _ _ _ _ _ _ _ (dm_iad_ok _ _ _ _ _ _ Hdm) EL).
          rewrite map_map. cbn [snd]. apply (sorted_map _ row_major_lt); [|apply cart_sorted].
          intros i0 k0 Hi Hk0 Hlt i' k' Hi' Hk' Ei Ek'. apply In_cart in Hi, Hk0.
          apply (dm_inj _ _ _ _ _ _ Hdm) in Ei, Ek'; auto. now subst. }
        apply sorted_unmap in So. revert So. apply sorted_impl. intros [j1 p1] [k1 q1] H1 H2 Hlt. cbn [fst snd] in *.
        apply HL in H1, H2. destruct H1 as [Bj ->]. destruct H2 as [Bk ->]. unfold earlier, s. cbn [shape_of].
        apply Hlt; auto; now apply source_index_in_box. }
      rewrite EL0 in So, Hin. apply in_app_or in Hin. destruct Hin as [Hin|[Hin|[]]].
      + pose proof (sorted_before _ _ _ _ _ So Hin) as B'. unfold earlier, s in B'. cbn [fst shape_of] in B'.
        eapply row_major_lt_irrefl. eapply row_major_lt_trans; [exact B|exact B'].
      + injection Hin as E _. congruence. }
    destruct K as [Hn0 K].
    assert (Hr2 : repr h2 s (fun i => if S (dm_index rd rs ro i) then x else unspecified_of d)).
    { rewrite K, (value_fun_eq _ _ _ _ Hx) in E3. destruct L as [|e L']; [congruence|].
      eexists. split; [exact E3|]. split; [exact Hdm|]. reflexivity. }
    exists h2. split; [unfold s; now rewrite (dm_setitem_run _ _ _ _ _ _ _ _ _ _ EL)|]. split; [eexists; exact Hr2|].
    intros i y Hi Hy. rewrite (repr_get h s f i Hr Hi) in Hy. injection Hy as <-. rewrite (repr_get h2 s _ i Hr2 Hi).
    rewrite (Hf i Hi). change (unspecified_of s) with (unspecified_of d).
    specialize (HS1 (dm_index rd rs ro i) (dm_box _ _ _ _ _ _ Hdm i Hi)).
    specialize (HS0 (dm_index rd rs ro i) (dm_box _ _ _ _ _ _ Hdm i Hi)). cbn [s placed].
    destruct (S (dm_index rd rs ro i)).
    + pose proof (proj1 HS0 eq_refl). tauto.
    + rewrite HS1 by reflexivity. assert (~ placed h d (dm_index rd rs ro i)) by (intros X; apply HS0 in X; discriminate).
      split; [congruence|]. split; [contradiction|reflexivity].
Qed.
Print Assumptions C33_last_value_everywhere.

(** s = DM.fromobject([[1, 2, 3], [4, 5, 6]], storage_class=COO); s[0, :2] = [8, 9]: all 9. *)
Example C33_last_value_case : forall c, In c [CCOO; CFlatCOO; CCSR; CDM] ->
  ('(s, h) <- dm_fromobject [] (SrcSeq (VSeq [VSeq [VInt 1; VInt 2; VInt 3]; VSeq [VInt 4; VInt 5; VInt 6]])) fo_default None None c ;;
   let '(h2, r) := setitem h s (XTuple [IInt 0; ISlice (Sl None (Some 2) None)]) (SrcSeq (VSeq [VInt 8; VInt 9])) in
   _ <- r ;; mapM (get_elem h2 s) (cart [2; 3]))
  = Ok (repeat (VInt 9) 6).
Proof. intros c [<-|[<-|[<-|[<-|[]]]]]; vm_compute; reflexivity. Qed.

(** C100: where the values of arrays come from when threads assign lists and
    arrays of all classes to arrays that share their lists. *)
From Verif Require Import Py SliceTools Basics Storage Spec SliceFacts IndexFacts SolverFacts Repr ReprFacts SparseFacts
  CompressFacts ReduceFacts MapFacts DMFacts WriteFacts RefineFacts PropWrite Threads ThreadFacts PropThreads PropRaces.
From Coq Require Import List.
Import ListNotations.

(** Element [i] of [s] is kept at position [p] of the list [a].  Elements a sparse
    array does not store are kept nowhere. *)
Inductive kept (h : heap) : storage -> list Z -> nat -> Z -> Prop :=
| k_buffer b k : kept h (SBuffer b) [k] (baddr b) (boff b + k)
| k_strided t i : kept h (SStrided t) i (baddr (sdata t)) (spos t i)
| k_sparse s d E i k : entries h s E -> data_buffer s = Ok d -> 0 <= k < zlen E ->
    fst (nth (Z.to_nat k) E ([], VNone)) = i -> kept h s i (baddr d) (boff d + k)
| k_dm sh rd rsh rs ro d i a p : kept h d (dm_index rd rs ro i) a p -> kept h (SDM sh rd rsh rs ro d) i a p.

(** Reading element [i] of [s] may give [x] if the list that keeps it may hold [x]
    there; an element kept nowhere gives the unspecified value. *)
Definition gives (h : heap) (V : nat -> Z -> pyval -> Prop) (s : storage) (i : list Z) (x : pyval) : Prop :=
  (exists a p, kept h s i a p /\ V a p x) \/ ((forall a p, ~ kept h s i a p) /\ x = unspecified_of s).

(** The statement [o] of a thread. *)
Definition stated (programs : list (list op)) (o : op) : Prop := exists ops, In ops programs /\ In o ops.

(** The values position [p] of the list [a] may hold: the one it holds before the
    threads start, those an assignment of a list puts there, and those an
    assignment of an array copies there from an element that may have them. *)
Inductive possible (h : heap) (programs : list (list op)) : nat -> Z -> pyval -> Prop :=
| p_initial a p x : hget h a p = Ok x -> possible h programs a p x
| p_listed s ix v j a p x : stated programs (Assign s ix (SrcSeq v)) ->
    in_box j (slice_shape ix (shape_of s)) -> kept h s (source_index ix (shape_of s) j) a p ->
    nested_at v j = Some x -> possible h programs a p x
| p_copied s ix t j a p b q x : stated programs (Assign s ix (SrcSto t)) ->
    in_box j (slice_shape ix (shape_of s)) -> kept h s (source_index ix (shape_of s) j) a p ->
    kept h t j b q -> possible h programs b q x -> possible h programs a p x
| p_unspecified s ix t j a p : stated programs (Assign s ix (SrcSto t)) ->
    in_box j (slice_shape ix (shape_of s)) -> kept h s (source_index ix (shape_of s) j) a p ->
    (forall b q, ~ kept h t j b q) -> possible h programs a p (unspecified_of t).

(** Statements on well-formed arrays of any class: reads of elements, and
    assignments of lists or of arrays of the right shape, other than those of C32. *)
Definition flow_op (h : heap) (o : op) : Prop :=
  match o with
  | Read s i => valid h s /\ in_box i (shape_of s)
  | Assign s ix value =>
      valid h s /\ positive (shape_of s) /\ ok_index ix (shape_of s)
      /\ match s with SStrided _ => True | _ => slice_writes s /\ slice_shape ix (shape_of s) <> [] end
      /\ match value with
         | SrcSeq v => regular (slice_shape ix (shape_of s)) v
         | SrcSto t => valid h t /\ shape_of t = slice_shape ix (shape_of s) /\ shape_of t <> []
         end
  end.
(** The arrays of a statement. *)
Definition arrays_of (o : op) : list storage :=
  match o with
  | Read s _ | Assign s _ (SrcSeq _) => [s]
  | Assign s _ (SrcSto t) => [s; t]
  end.
(** No thread assigns to the list [a]. *)
Definition untouched (programs : list (list op)) (a : nat) : Prop :=
  forall s ix value, stated programs (Assign s ix value) -> data_addr s <> a.
(** No thread assigns to a list in which an array keeps its indices. *)
Definition indices_untouched (programs : list (list op)) : Prop :=
  forall o s a, stated programs o -> In s (arrays_of o) -> In a (index_addrs s) -> untouched programs a.

Fixpoint reads_give (P : storage -> list Z -> pyval -> Prop) (ops : list op) (xs : list pyval) : Prop :=
  match ops with
  | [] => xs = []
  | Read s i :: r => match xs with [] => False | x :: xs' => P s i x /\ reads_give P r xs' end
  | Assign _ _ _ :: r => reads_give P r xs
  end.

Section Safe.
Variable h0 : heap.
Variable K : nat -> Prop.
Variable V : nat -> Z -> pyval -> Prop.
Variable R : nat -> Z -> Prop.
Variable W : nat -> Z -> pyval -> Prop.
Variable F : Prop.

(** As [allowed], but lists nobody writes are read as they are; elements of other
    lists are read in [R] only, and [W] is true of everything written. *)
Fixpoint safe {A} (Q : res A -> Prop) (m : prog A) : Prop :=
  match m with
  | Ret r => Q r
  | Get a p k => (0 <= p < sizes h0 a /\ R a p /\ forall v, V a p v -> safe Q (k v)) \/ (K a /\ exists v, hget h0 a p = Ok v /\ safe Q (k v))
  | Put a p v k => 0 <= p < sizes h0 a /\ ~ K a /\ (V a p v /\ W a p v) /\ safe Q k
  end.
Lemma safe_bind {A B} (Q : res A -> Prop) (Q' : res B -> Prop) (f : A -> prog B) :
  (forall x, Q (Ok x) -> safe Q' (f x)) -> (forall e, Q (Raise e) -> Q' (Raise e)) ->
  forall m, safe Q m -> safe Q' (pbind m f).
Proof.
  intros H1 H2. induction m as [[x|e]|a p k IH|a p v k IH]; cbn [safe pbind]; [apply H1|apply H2| |].
  - intros [(H3 & HR & H4)|(H3 & v & H4 & H5)]; [left|right].
    + split; [exact H3|]. split; [exact HR|]. intros v Hv. apply IH. now apply H4.
    + split; [exact H3|]. exists v. split; [exact H4|]. now apply IH.
  - intros (H3 & H4 & H5 & H6). split; [exact H3|]. split; [exact H4|]. split; [exact H5|]. now apply IH.
Qed.
(** Reading lists nobody writes. *)
Lemma safe_still {A B} (m : prog A) (f : A -> prog B) Q : within (fun a _ => K a) (fun _ _ => False) m ->
  forall x, snd (run m h0) = Ok x -> safe Q (f x) -> safe Q (pbind m f).
Proof.
  induction m as [r|a p k IH|a p v k IH]; intros Hw x E Hf; cbn [within run safe pbind] in *.
  - cbn [snd] in E. subst r. exact Hf.
  - destruct Hw as [W1 W2]. destruct (hget h0 a p) as [v|] eqn:Ev; [|discriminate]. right. split; [exact W1|]. exists v. split; [reflexivity|].
    now apply (IH v (W2 v) x).
  - destruct Hw as [[] _].
Qed.

Definition invariant (h : heap) : Prop := heap_in (sizes h0) V h /\ forall a, K a -> nth_error h a = nth_error h0 a.
Lemma hget_still h a p : invariant h -> K a -> hget h a p = hget h0 a p.
Proof. intros [_ H] Ha. unfold hget, cell. now rewrite (H a Ha). Qed.
Lemma hput_invariant h a p v h' : invariant h -> 0 <= p -> V a p v -> ~ K a -> hput h a p v = Ok h' -> invariant h'.
Proof.
  intros [H1 H2] Hp Hv Ha E. split; [exact (hput_heap_in _ _ _ _ _ _ _ H1 Hp Hv E)|]. intros b Hb. rewrite <- (H2 b Hb).
  destruct (hput_ok _ _ _ _ _ E) as (l & El & _ & ->). apply set_nth_error_other. intros ->. now apply Ha.
Qed.
Lemma advance_safe {A} (Q : res A -> Prop) h m h' m' : invariant h -> safe Q m -> advance h m = (h', m') -> invariant h' /\ safe Q m'.
Proof.
  intros Hh Hm E. destruct m as [r|a p k|a p v k]; cbn [advance safe] in *.
  - now injection E as <- <-.
  - destruct Hm as [(H1 & _ & H2)|(H1 & v & H2 & H3)].
    + destruct (hget_in h a p) as (x & Ex); [now rewrite (proj1 (proj1 Hh))|]. rewrite Ex in E. injection E as <- <-.
      split; [exact Hh|]. apply H2. now apply (proj2 (proj1 Hh) a p x).
    + rewrite (hget_still h a p Hh H1), H2 in E. injection E as <- <-. now split.
  - destruct Hm as (H1 & H2 & H3 & H4). destruct (hput_in h a p v) as (h1 & E1); [now rewrite (proj1 (proj1 Hh))|]. rewrite E1 in E. injection E as <- <-.
    split; [|exact H4]. exact (hput_invariant h a p v h1 Hh (proj1 H1) (proj1 H3) H2 E1).
Qed.
Lemma exec_safe {A} : forall sched h (ts : list (prog A)) Qs h' ts', invariant h -> Forall2 (fun Q t => safe Q t) Qs ts ->
  exec sched h ts = (h', ts') -> invariant h' /\ Forall2 (fun Q t => safe Q t) Qs ts'.
Proof.
  induction sched as [|j sched IH]; intros h ts Qs h' ts' Hh HF E; cbn [exec] in E; [injection E as <- <-; now split|].
  destruct (nth_error ts j) as [t|] eqn:Ej; [|eapply IH; eassumption].
  destruct (advance h t) as [h1 t1] eqn:E1. destruct (Forall2_nth _ _ _ HF j t Ej) as (Q & EQ & HQ).
  destruct (advance_safe Q h t h1 t1 Hh HQ E1) as [X1 X2]. eapply IH; [exact X1| |exact E].
  eapply Forall2_set; eassumption.
Qed.
Lemma run_safe {A} (Q : res A -> Prop) m : forall h, invariant h -> safe Q m -> Q (snd (run m h)).
Proof.
  induction m as [r|a p k IH|a p v k IH]; intros h Hh Hm; cbn [run safe] in *; [exact Hm| |].
  - destruct Hm as [(H1 & _ & H2)|(H1 & v & H2 & H3)].
    + destruct (hget_in h a p) as (x & Ex); [now rewrite (proj1 (proj1 Hh))|]. rewrite Ex. apply IH; [exact Hh|].
      apply H2. now apply (proj2 (proj1 Hh) a p x).
    + rewrite (hget_still h a p Hh H1), H2. now apply IH.
  - destruct Hm as (H1 & H2 & H3 & H4). destruct (hput_in h a p v) as (h1 & E1); [now rewrite (proj1 (proj1 Hh))|]. rewrite E1.
    apply IH; [|exact H4]. exact (hput_invariant h a p v h1 Hh (proj1 H1) (proj1 H3) H2 E1).
Qed.

Definition fine {A} (r : res A) : Prop := match r with Ok _ => True | Raise _ => F end.
Lemma safe_for {X} (bt : X -> prog unit) : forall l, (forall x, In x l -> safe fine (bt x)) -> safe fine (for_t l bt).
Proof.
  induction l as [|x l IH]; intros H; cbn [for_t]; [exact I|]. eapply safe_bind; [| |apply H; now left].
  - intros _ _. apply IH. intros y Hy. apply H. now right.
  - intros e Ey. exact Ey.
Qed.

(** * Reading an element *)
Lemma still_position s i E : entries h0 s E -> in_box i (shape_of s) -> (forall a, In a (index_addrs s) -> K a) ->
  forall B (f : option Z -> prog B) Q, safe Q (f (zpos (epos E i))) -> safe Q (pbind (flat_data_position_t s i) f).
Proof.
  intros HE Hi HK B f Q Hf. apply (safe_still _ f Q (w_position _ _ s i (fun a _ => HK a))) with (x := zpos (epos E i)); [|exact Hf].
  rewrite reads_position; [cbn [snd]; now apply flat_data_position_ok|]. apply (C94_arrays_fit h0).
  - exists (lookup E (unspecified_of s)). destruct s; cbn in HE; try contradiction; (exists E; split; [exact HE|reflexivity]).
  - destruct s; auto. contradiction.
Qed.
Lemma kept_sparse s E d i : entries h0 s E -> data_buffer s = Ok d -> in_box i (shape_of s) -> epos E i = None -> forall a p, ~ kept h0 s i a p.
Proof.
  intros HE Ed Hi En a p Hk. assert (X := flat_data_position_ok h0 s E i HE Hi). rewrite En in X.
  inversion Hk as [b k|t i'|s' d' E' i' k HE' Ed' Hk' Ei|? ? ? ? ? ? ? ? ? ?]; subst; try contradiction.
  rewrite (flat_data_position_ok h0 s E' _ HE' Hi) in X. destruct (epos E' _) eqn:Ep; [discriminate|]. apply epos_none in Ep. apply Ep.
  apply in_map. apply nth_In. unfold zlen in Hk'. lia.
Qed.
Lemma sparse_read s E i : entries h0 s E -> in_box i (shape_of s) -> (forall a, In a (index_addrs s) -> K a) ->
  (forall a p, kept h0 s i a p -> R a p) ->
  safe (fun r => exists x, r = Ok x /\ gives h0 V s i x) (flat_get_elem_t s i).
Proof.
  intros HE Hi HK HR. unfold flat_get_elem_t. apply (still_position s i E HE Hi HK).
  destruct (entries_data h0 s E HE) as (d & Ed & Hd & _). destruct (epos E i) as [k|] eqn:Ek; cbn [zpos option_map].
  - rewrite Ed. cbn [pbind buf_get_t safe]. left. apply epos_some in Ek as [Hk Ei].
    assert (Hkept : kept h0 s i (baddr d) (boff d + Z.of_nat k)).
    { apply (k_sparse h0 s d E); auto; [unfold zlen; lia|]. now rewrite Nat2Z.id. }
    split; [|split; [now apply HR|]].
    + destruct Hd as (l & El & Ho & Hs & He & _). unfold sizes. rewrite El. rewrite zlen_map in Hs. unfold zlen in *. lia.
    + intros v Hv. exists v. split; [reflexivity|]. left. exists (baddr d), (boff d + Z.of_nat k). split; [exact Hkept|exact Hv].
  - cbn [safe]. exists (unspecified_of s). split; [reflexivity|]. right. split; [|reflexivity]. now apply (kept_sparse s E d).
Qed.
Lemma normal_element i sh : in_box i sh -> normalize_index (int_tuple i) sh = Ok (map NInt i) /\ is_element_index (map NInt i) sh = true
  /\ int_items (map NInt i) = i.
Proof.
  intros Hi. split; [now apply normalize_ints|]. split; [apply is_element_ints; apply (Forall2_len _ _ _ Hi)|]. clear. induction i; cbn; congruence.
Qed.
Lemma read_safe : forall s i, valid h0 s -> in_box i (shape_of s) -> (forall a, In a (index_addrs s) -> K a) ->
  (forall a p, kept h0 s i a p -> R a p) ->
  safe (fun r => exists x, r = Ok x /\ gives h0 V s i x) (get_elem_t s i).
Proof.
  induction s as [b|t|sh ind d|sh fi d|sh cr co d|sh ch a b c d|sh rd rsh rs ro d IH]; intros i [f Hf] Hi HK HR.
  - cbn [shape_of] in Hi. apply box1 in Hi as (x & -> & Hx). cbn [get_elem_t buf_get_t safe]. left. destruct Hf as (vs & (l & El & Ho & Hs & He & _) & _). split; [|split; [apply HR; constructor|]].
    + unfold sizes. rewrite El. lia.
    + intros v Hv. exists v. split; [reflexivity|]. left. exists (baddr b), (boff b + x). split; [constructor|exact Hv].
  - destruct Hf as (l & El & S & _). cbn [get_elem_t shape_of] in *. unfold strided_elem_t.
    destruct (normal_element i _ Hi) as (-> & E2 & E3). cbn [pbind]. rewrite E2, E3.
    rewrite get_position_ok by (apply (Forall2_len _ _ _ Hi) || apply (so_strides _ _ S)). cbn [pbind buf_get_t safe]. left.
    fold (spos t i). split; [|split; [apply HR; constructor|]].
    + unfold sizes. rewrite El. pose proof (so_pos _ _ S i Hi). pose proof (so_end _ _ S). lia.
    + intros v Hv. exists v. split; [reflexivity|]. left. exists (baddr (sdata t)), (spos t i). split; [constructor|exact Hv].
  - destruct Hf as (E & HE & _). cbn [get_elem_t shape_of] in *. destruct (normal_element i _ Hi) as (E1 & E2 & E3). rewrite E1. cbn [pbind]. rewrite E2, E3.
    now apply (sparse_read _ E).
  - destruct Hf as (E & HE & _). cbn [get_elem_t shape_of] in *. destruct (normal_element i _ Hi) as (E1 & E2 & E3). rewrite E1. cbn [pbind]. rewrite E2, E3.
    now apply (sparse_read _ E).
  - destruct Hf as (E & HE & _). cbn [get_elem_t shape_of] in *. destruct (normal_element i _ Hi) as (E1 & E2 & E3). rewrite E1. cbn [pbind]. rewrite E2, E3.
    now apply (sparse_read _ E).
  - destruct Hf as (E & HE & _). contradiction.
  - destruct Hf as (g & Hg & Hd & _). cbn [get_elem_t shape_of index_addrs] in *.
    destruct (normal_element i _ Hi) as (E1 & E2 & E3). rewrite E1. cbn [pbind]. rewrite E2, E3. pose proof (dm_rshapes _ _ _ _ _ _ Hd) as Er. subst rsh.
    rewrite reduce_index_dm; [|apply (dm_rstrides _ _ _ _ _ _ Hd)| |apply (dm_roffset _ _ _ _ _ _ Hd)].
    2:{ rewrite (in_box_zlen _ _ Hi). apply perm_axes, (dm_perm _ _ _ _ _ _ Hd). }
    cbn [pbind]. assert (X := IH (dm_index rd rs ro i) (ex_intro _ g Hg) (dm_box _ _ _ _ _ _ Hd i Hi) HK (fun a p Hk => HR a p (k_dm h0 _ _ _ _ _ _ _ _ _ Hk))).
    clear - X sh. revert X. generalize (get_elem_t d (dm_index rd rs ro i)). intros m.
    assert (G : forall x, gives h0 V d (dm_index rd rs ro i) x -> gives h0 V (SDM sh rd (map (gather sh) rd) rs ro d) i x).
    { intros x [(a & p & Hk & Hv)|[Hn ->]]; [left; exists a, p; split; [now constructor|exact Hv]|right]. split; [|reflexivity].
      intros a p Hk. inversion Hk; subst; [cbn in *; contradiction|]. eapply Hn. eassumption. }
    induction m as [r|a p k IH|a p v k IH]; cbn [safe].
    + intros (x & -> & Hx). exists x. split; [reflexivity|]. now apply G.
    + intros [(H1 & HR & H2)|(H1 & v & H2 & H3)]; [left|right]; (split; [assumption|]); [split; [exact HR|]; intros v Hv; apply IH; now apply H2|]. exists v. split; [exact H2|]. now apply IH.
    + intros (H1 & H2 & H3 & H4). auto.
Qed.

(** * Assignments *)
Definition supplies (value : source) (j : list Z) (x : pyval) : Prop :=
  match value with SrcSeq v => nested_at v j = Some x \/ F | SrcSto t => gives h0 V t j x end.
Definition supply_ok (value : source) (sh : list Z) : Prop :=
  match value with
  | SrcSeq v => regular sh v \/ F
  | SrcSto t => valid h0 t /\ shape_of t = sh /\ shape_of t <> [] /\ forall a, In a (index_addrs t) -> K a
  end.
Lemma value_safe value sh j : supply_ok value sh -> in_box j sh ->
  match value with SrcSeq _ => True | SrcSto t => forall a p, kept h0 t j a p -> R a p end ->
  safe (fun r => match r with Ok x => supplies value j x | Raise _ => F end) (get_value_t value j).
Proof.
  destruct value as [v|t]; cbn [supply_ok get_value_t supplies].
  - intros [Hr|HF] Hj _; cbn [safe].
    + destruct (regular_at sh v j Hr Hj) as (x & Ex). rewrite (nested_at_get _ _ _ Ex). now left.
    + destruct (seq_value v j); [now right|exact HF].
  - intros (Ht & Es & Hn & HK) Hj HR. subst sh. destruct j as [|j0 j]; [inversion Hj; congruence|].
    assert (X := read_safe t (j0 :: j) Ht Hj HK HR). revert X. generalize (get_elem_t t (j0 :: j)). intros m.
    induction m as [r|a p k IH|a p v k IH]; cbn [safe].
    + intros (x & -> & Hx). exact Hx.
    + intros [(H1 & HR' & H2)|(H1 & v & H2 & H3)]; [left|right]; (split; [assumption|]); [split; [exact HR'|]; intros v Hv; apply IH; now apply H2|].
      exists v. split; [exact H2|]. now apply IH.
    + intros (H1 & H2 & H3 & H4). auto.
Qed.

(** The loop [G] calls its body with the items of [L] only. *)
Definition offers {X} (G : generator_t X) (L : list X) : Prop :=
  forall bt, (forall x, In x L -> safe fine (bt x)) -> safe fine (G bt).
Lemma for_offers {X Y} (g : Y -> res X) (bt : X -> prog unit) (body : Y -> prog unit) :
  (forall y x, g y = Ok x -> safe fine (bt x) -> safe fine (body y)) ->
  forall l L, mapM g l = Ok L -> (forall x, In x L -> safe fine (bt x)) -> safe fine (for_t l body).
Proof.
  intros Hs. induction l as [|y l IH]; intros L E Hb; cbn [mapM for_t] in *; [exact I|].
  apply bind_ok in E as (x & Ex & E). apply bind_ok in E as (L' & EL & E). injection E as <-.
  eapply safe_bind; [| |apply (Hs y x Ex); apply Hb; now left].
  - intros _ _. apply (IH L' EL). intros z Hz. apply Hb. now right.
  - intros e Ez. exact Ez.
Qed.
Lemma strided_offers sh st off L : strided_slice_iad sh st off = Ok L -> offers (strided_slice_gen_t sh st off) L.
Proof.
  intros E bt Hb. unfold strided_slice_gen_t. refine (for_offers _ bt _ _ (cart sh) L E Hb). cbn beta. intros y x Ex Hx.
  apply bind_ok in Ex as (p & -> & Ex). injection Ex as <-. exact Hx.
Qed.
Lemma dm_offers sh rd rsh rs ro L : dm_iad sh rd rsh rs ro = Ok L -> offers (dm_gen_t sh rd rsh rs ro) L.
Proof.
  intros E bt Hb. unfold dm_gen_t. refine (for_offers _ bt _ _ (cart sh) L E Hb). cbn beta. intros y x Ex Hx.
  apply bind_ok in Ex as (p & -> & Ex). injection Ex as <-. exact Hx.
Qed.
Lemma slice_offers {P} sh0 (G : generator_t (list Z * P)) l sh st off L : offers G l ->
  slice_iad sh0 (Ok l) sh st off = Ok L -> offers (slice_gen_t sh0 G sh st off) L.
Proof.
  intros Hg E bt Hb. unfold slice_gen_t, slice_iad in *. apply bind_ok in E as (sd & -> & E). cbn [pbind bind] in *.
  apply Hg. clear Hg. revert L E Hb. induction l as [|[ix p] l IH]; intros L E Hb x Hx; [destruct Hx|]. cbn [slice_iad_loop] in E.
  apply bind_ok in E as (sp & E1 & E). apply bind_ok in E as (o & E2 & E). apply bind_ok in E as (rest & E3 & E).
  assert (Hr : forall y, In y rest -> safe fine (bt y)) by (intros y Hy; apply Hb; destruct o; injection E as <-; [now right|exact Hy]).
  destruct Hx as [<-|Hx]; [|exact (IH rest E3 Hr x Hx)]. cbn [fst snd]. rewrite E1. cbn [pbind]. rewrite E2. cbn [pbind].
  destruct o as [six|]; [|exact I]. apply Hb. injection E as <-. now left.
Qed.
Lemma still_int b i : K (baddr b) -> forall x, buf_int h0 b i = Ok x ->
  forall B (f : Z -> prog B) Q, safe Q (f x) -> safe Q (pbind (buf_int_t b i) f).
Proof.
  intros Hb x Ex B f Q Hf. apply (safe_still _ f Q (w_buf_int _ _ b i (fun _ => Hb))) with (x := x); [|exact Hf].
  now rewrite reads_buf_int.
Qed.
Lemma sparse_offers s E L : entries h0 s E -> (forall a, In a (index_addrs s) -> K a) -> sparse_iad h0 s = Ok L -> offers (sparse_gen_t s) L.
Proof.
  intros HE HK EL bt Hb. destruct s as [b|t|sh ind d|sh fi d|sh cr co d|sh ch a b c d|sh rd rsh rs ro d]; try contradiction; cbn [sparse_iad sparse_gen_t index_addrs] in *.
  - unfold coo_iad in EL. unfold coo_gen_t. apply bind_ok in EL as (n & -> & EL). apply bind_ok in EL as (rows & E0 & EL). cbn [pbind].
    refine (for_offers _ bt _ _ (zseq n) L EL Hb). cbn beta. intros pos x Ex Hx. rewrite E0. cbn [pbind].
    apply bind_ok in Ex as (ix & Ei & Ex). injection Ex as <-.
    apply (safe_still _ (fun ix => bt (ix, pos)) fine) with (x := ix); [| |exact Hx].
    + generalize (zseq rows). intros js. induction js as [|j js IHj]; cbn [mapM_t]; [exact I|].
      apply within_bind; [apply w_strided_int; intros q; apply HK; now left|]. intros y. apply within_bind; [exact IHj|]. intros ys. exact I.
    + rewrite (reads_mapM _ (fun h j => strided_int h ind (int_tuple [j; pos]))); [exact Ei|].
      intros j. apply reads_strided_int. destruct HE as (_ & _ & _ & _ & -> & _). reflexivity.
  - unfold flatcoo_iad in EL. unfold flatcoo_gen_t. apply bind_ok in EL as (sd & -> & EL). cbn [pbind].
    refine (for_offers _ bt _ _ (zseq (bsize fi)) L EL Hb). cbn beta. intros pos x Ex Hx.
    apply bind_ok in Ex as (f & Ef & Ex). apply bind_ok in Ex as (i & Ei & Ex).
    apply (still_int fi pos (HK _ (or_introl eq_refl)) f Ef). rewrite Ei. cbn [pbind]. destruct i as [ix|]; [|discriminate]. injection Ex as <-. exact Hx.
  - unfold csr_iad in EL. unfold csr_gen_t. apply bind_ok in EL as (n & -> & EL). cbn [pbind].
    revert L EL Hb. induction (zseq n) as [|r rows IHr]; intros L EL Hb; cbn [csr_iad_rows for_t] in *; [exact I|].
    apply bind_ok in EL as (x & Ex & EL). apply bind_ok in EL as (y & Ey & EL). apply bind_ok in EL as (l & El & EL). apply bind_ok in EL as (rest & Er & EL).
    injection EL as <-. eapply safe_bind with (Q := fine).
    + intros _ _. apply (IHr rest Er). intros z Hz. apply Hb. apply in_or_app. now right.
    + intros e Ez. exact Ez.
    + apply (still_int cr r (HK _ (or_introl eq_refl)) x Ex). apply (still_int cr (r + 1) (HK _ (or_introl eq_refl)) y Ey).
      refine (for_offers _ bt _ _ (zrange x y) l El _); [|intros z Hz; apply Hb; apply in_or_app; now left].
      cbn beta. intros pos z Ez Hz. apply bind_ok in Ez as (c & Ec & Ez). injection Ez as <-.
      now apply (still_int co pos (HK _ (or_intror (or_introl eq_refl))) c Ec).
Qed.

(** Writing one element of a Buffer or Strided array. *)
Lemma element_safe d r v : elem_data d -> valid h0 d -> in_box r (shape_of d) -> ~ K (data_addr d) ->
  (forall a p, kept h0 d r a p -> V a p v /\ W a p v) -> safe fine (setitem_t d (int_tuple r) (SrcSeq v)).
Proof.
  intros Hd [f Hf] Hr HK HV. destruct d as [b|t| | | | |]; try contradiction; cbn [shape_of data_addr] in *.
  - apply box1 in Hr as (k & -> & Hk). cbn [setitem_t]. unfold buffer_setitem_t, int_tuple. cbn [map buf_complete_index].
    unfold buf_write_t. cbn [safe]. destruct Hf as (vs & (l & El & Ho & Hs & He & _) & _).
    split; [unfold sizes; rewrite El; lia|]. split; [exact HK|]. split; [apply HV; constructor|exact I].
  - destruct Hf as (l & El & S & _). destruct (strided_positions t l (int_tuple r) S (in_box_positive_shape _ _ Hr) (int_tuple_ok r _ (in_box_len _ _ Hr))) as (L & EL & HL & _ & HR & _).
    cbn [setitem_t]. destruct (normalize_index _ _) as [nix|]; cbn [bind] in *; [|discriminate].
    destruct (index_strided _ _ _ _) as [[[sh st] off]|]; cbn [bind pbind] in *; [|discriminate].
    apply (strided_offers sh st off L EL). intros [j p] Hj. rewrite Forall_forall in HR. specialize (HR _ Hj). cbn [snd] in HR.
    apply HL in Hj as [Hj Hp]. rewrite int_tuple_shape in Hj by (now apply in_box_len). apply in_box_nil in Hj. subst j.
    rewrite (int_tuple_source r _ Hr) in Hp. unfold put_t. cbn [fst snd get_value_t]. replace (seq_value v []) with (Ok v) by reflexivity.
    cbn [pbind]. unfold buf_write_t. cbn [safe]. rewrite Hp in *. split; [unfold sizes; rewrite El; exact HR|]. split; [exact HK|].
    split; [apply HV; constructor|exact I].
Qed.

Lemma assign_safe s ix value : valid h0 s -> positive (shape_of s) -> ok_index ix (shape_of s) ->
  match s with SStrided _ => True | _ => slice_writes s /\ slice_shape ix (shape_of s) <> [] end ->
  supply_ok value (slice_shape ix (shape_of s)) -> ~ K (data_addr s) -> (forall a, In a (index_addrs s) -> K a) ->
  (forall j a p x, in_box j (slice_shape ix (shape_of s)) -> kept h0 s (source_index ix (shape_of s) j) a p -> supplies value j x -> V a p x /\ W a p x) ->
  match value with
  | SrcSeq _ => True
  | SrcSto t => forall j b q a p, in_box j (slice_shape ix (shape_of s)) -> kept h0 s (source_index ix (shape_of s) j) b q -> kept h0 t j a p -> R a p
  end ->
  safe fine (setitem_t s ix value).
Proof.
  intros [f Hf] Hp Hok Hs Hv HK HI HV HRd.
  assert (PUT : forall P (w : P -> pyval -> prog unit) j p b q, in_box j (slice_shape ix (shape_of s)) ->
    kept h0 s (source_index ix (shape_of s) j) b q ->
    (forall x, supplies value j x -> safe fine (w p x)) -> safe fine (put_t w value (j, p))).
  { intros P w j p b q Hj Hk Hw. unfold put_t. cbn [fst snd]. eapply safe_bind; [| |refine (value_safe value _ j Hv Hj _)].
    - intros x Hy. now apply Hw.
    - intros e He. exact He.
    - destruct value as [v|t]; [exact I|]. intros a p' Hk'. exact (HRd j b q a p' Hj Hk Hk'). }
  assert (SPARSE : is_sparse s -> slice_shape ix (shape_of s) <> [] -> safe fine (setitem_t s ix value)).
  { intros Hsp Hn. assert (HE : exists E, entries h0 s E) by (destruct s; try contradiction; destruct Hf as (E & HE & _); now exists E). destruct HE as (E & HE).
    destruct (sparse_positions h0 s E ix HE Hp Hok Hn) as (L & d & EL & Ed & HL & _).
    assert (Hu : setitem_t s ix value =
      pbind (Ret (nix <- normalize_index ix (shape_of s) ;;
                  '(sh, st, off) <- index_strided nix (shape_of s) (strides_of s) 0 ;;
                  d <- data_buffer s ;; Ok (sh, st, off, d)))
        (fun '(sh, st, off, d) => slice_gen_t (shape_of s) (sparse_gen_t s) sh st off (put_t (buf_write_t d) value)))
      by (destruct s; try contradiction; reflexivity).
    rewrite Hu. clear Hu. destruct (normalize_index ix (shape_of s)) as [nix|]; cbn [bind] in *; [|discriminate].
    destruct (index_strided _ _ _ _) as [[[sh st] off]|]; cbn [bind] in *; [|discriminate]. rewrite Ed in *. cbn [bind pbind] in *.
    destruct (slice_iad _ _ _ _ _) as [L0|] eqn:ES; cbn [bind] in EL; [|discriminate]. injection EL as ->.
    destruct (sparse_iad h0 s) as [l|] eqn:El; [|unfold slice_iad in ES; destruct (init_diophantine _ _); discriminate].
    destruct (entries_data h0 s E HE) as (d' & Ed' & Hd & _ & Ha). rewrite Ed in Ed'. injection Ed' as <-.
    destruct Hd as (c & Ec & Hd). assert (Hc := entries_range h0 s E d c HE Ed Ec).
    apply (slice_offers _ _ l _ _ _ L (sparse_offers s E l HE HI El) ES). intros [j p] Hj. apply HL in Hj as [Hj Hin]. apply In_numbered in Hin as [Hk Ei].
    assert (Hkept : kept h0 s (source_index ix (shape_of s) j) (baddr d) (boff d + p)) by now apply (k_sparse h0 s d E).
    apply (PUT _ _ _ _ _ _ Hj Hkept). intros x Hx. unfold buf_write_t. cbn [safe]. split; [unfold sizes; rewrite Ec; now apply Hc|].
    split; [now rewrite Ha|]. split; [|exact I]. exact (HV j _ _ x Hj Hkept Hx). }
  destruct s as [b|t|sh ind d|sh fi d|sh cr co d|sh ch a b c d|sh rd rsh rs ro d]; try (apply SPARSE; [exact I|apply Hs]).
  - destruct Hs as [[] _].
  - clear SPARSE. cbn [shape_of data_addr] in *. destruct Hf as (l & El & S & _). destruct (strided_positions t l ix S Hp Hok) as (L & EL & HL & _ & HR & _).
    cbn [setitem_t]. destruct (normalize_index _ _) as [nix|]; cbn [bind] in *; [|discriminate].
    destruct (index_strided _ _ _ _) as [[[sh st] off]|]; cbn [bind pbind] in *; [|discriminate].
    apply (strided_offers sh st off L EL). intros [j p] Hj. rewrite Forall_forall in HR. specialize (HR _ Hj). cbn [snd] in HR.
    apply HL in Hj as [Hj Hq]. apply (PUT _ _ _ _ _ _ Hj (k_strided h0 t _)). intros x Hx. unfold buf_write_t. cbn [safe]. rewrite Hq in *.
    split; [unfold sizes; rewrite El; exact HR|]. split; [exact HK|]. split; [|exact I]. apply (HV j _ _ x Hj); [constructor|exact Hx].
  - destruct Hs as [[] _].
  - clear SPARSE. cbn [shape_of data_addr index_addrs] in *. destruct Hs as [Hw Hn]. destruct Hf as (g & Hg & Hd & _).
    destruct (dm_positions sh rd rsh rs ro _ ix Hd Hp Hok Hn) as (L & EL & HL & _ & HB).
    assert (He : elem_data d) by (destruct d; try contradiction; exact I).
    cbn [setitem_t]. destruct (normalize_index _ _) as [nix|]; cbn [bind] in *; [|discriminate].
    destruct (index_strided _ _ _ _) as [[[sh' st] off]|]; cbn [bind pbind] in *; [|discriminate].
    destruct (dm_iad sh rd rsh rs ro) as [l|] eqn:El; [|unfold slice_iad in EL; destruct (init_diophantine _ _); discriminate].
    apply (slice_offers _ _ l _ _ _ L (dm_offers sh rd rsh rs ro l El) EL). intros [j p] Hj. rewrite Forall_forall in HB. specialize (HB _ Hj). cbn [snd] in HB.
    apply HL in Hj as [Hj ->].
    assert (Hkept : exists a p, kept h0 d (dm_index rd rs ro (source_index ix sh j)) a p).
    { destruct d as [b|t| | | | |]; try contradiction; [|eexists _, _; apply k_strided].
      apply box1 in HB as (k & -> & _). eexists _, _. apply k_buffer. }
    destruct Hkept as (b & q & Hkept). apply (PUT _ _ _ _ b q Hj (k_dm h0 _ _ _ _ _ _ _ _ _ Hkept)). intros x Hx. apply element_safe; [exact He|now exists g|exact HB|exact HK|].
    intros a p Hk. apply (HV j a p x Hj); [now constructor|exact Hx].
Qed.
End Safe.

(** What the statement [o] reads and writes in the data lists of its arrays. *)
Definition reads_at (h : heap) (o : op) (a : nat) (p : Z) : Prop :=
  match o with
  | Read s i => kept h s i a p
  | Assign s ix (SrcSeq _) => False
  | Assign s ix (SrcSto t) => exists j b q, in_box j (slice_shape ix (shape_of s))
      /\ kept h s (source_index ix (shape_of s) j) b q /\ kept h t j a p
  end.
Definition writes_at (h : heap) (o : op) (a : nat) (p : Z) : Prop :=
  match o with
  | Read _ _ => False
  | Assign s ix _ => exists j, in_box j (slice_shape ix (shape_of s)) /\ kept h s (source_index ix (shape_of s) j) a p
  end.

Definition flow_op_or (F : Prop) (h : heap) (o : op) : Prop :=
  match o with
  | Read s i => valid h s /\ in_box i (shape_of s)
  | Assign s ix value =>
      valid h s /\ positive (shape_of s) /\ ok_index ix (shape_of s)
      /\ match s with SStrided _ => True | _ => slice_writes s /\ slice_shape ix (shape_of s) <> [] end
      /\ match value with
         | SrcSeq v => regular (slice_shape ix (shape_of s)) v \/ F
         | SrcSto t => valid h t /\ shape_of t = slice_shape ix (shape_of s) /\ shape_of t <> []
         end
  end.
Lemma flow_or F h o : flow_op h o -> flow_op_or F h o.
Proof. destruct o as [s i|s ix [v|t]]; cbn; tauto. Qed.

Lemma thread_safe h0 (K : nat -> Prop) (V : nat -> Z -> pyval -> Prop) (R : nat -> Z -> Prop) (W : nat -> Z -> pyval -> Prop) (F : Prop) :
  forall ops, Forall (flow_op_or F h0) ops ->
  (forall o s a, In o ops -> In s (arrays_of o) -> In a (index_addrs s) -> K a) ->
  (forall s ix value, In (Assign s ix value) ops -> ~ K (data_addr s)) ->
  (forall s ix value j a p x, In (Assign s ix value) ops -> in_box j (slice_shape ix (shape_of s)) ->
     kept h0 s (source_index ix (shape_of s) j) a p -> supplies h0 V F value j x -> V a p x /\ W a p x) ->
  (forall o a p, In o ops -> reads_at h0 o a p -> R a p) ->
  safe h0 K V R W (fun r => match r with Ok xs => reads_give (gives h0 V) ops xs | Raise _ => F end) (thread ops).
Proof.
  induction ops as [|o ops IH]; intros HF HI HK HV HR; cbn [thread]; [reflexivity|]. inversion HF as [|? ? Fo Fr]; subst.
  assert (I1 := IH Fr (fun o s a Ho => HI o s a (or_intror Ho)) (fun s ix v Ho => HK s ix v (or_intror Ho))
    (fun s ix v j a p x Ho => HV s ix v j a p x (or_intror Ho)) (fun o a p Ho => HR o a p (or_intror Ho))).
  destruct o as [s i|s ix value]; cbn [flow_op_or] in Fo.
  - destruct Fo as [V1 Hi]. eapply safe_bind; [| |apply (read_safe h0 K V R W s i V1 Hi)].
    + intros x (y & Ey & Hy). injection Ey as <-. eapply safe_bind; [| |exact I1].
      * intros xs Hys. cbn [safe reads_give]. split; assumption.
      * intros e He. exact He.
    + intros e (y & Ey & _). discriminate.
    + intros a Ha; apply (HI (Read s i) s a); [now left|now left|exact Ha].
    + intros a p Hk. apply (HR (Read s i)); [now left|exact Hk].
  - destruct Fo as (V1 & P1 & O1 & T1 & S1).
    assert (Hs : In s (arrays_of (Assign s ix value))) by (destruct value; now left).
    eapply safe_bind; [| |apply (assign_safe h0 K V R W F s ix value V1 P1 O1 T1)].
    + intros u _. exact I1.
    + intros e He. exact He.
    + destruct value as [v|t]; [exact S1|]. destruct S1 as (S1 & S2 & S3). split; [exact S1|]. split; [exact S2|]. split; [exact S3|].
      intros a Ha. apply (HI (Assign s ix (SrcSto t)) t a); [now left|right; now left|exact Ha].
    + apply (HK s ix value). now left.
    + intros a Ha. apply (HI (Assign s ix value) s a); [now left|exact Hs|exact Ha].
    + intros j a p x. apply (HV s ix value). now left.
    + destruct value as [v|t]; [exact I|]. intros j b q a p Hj Hb Ha. apply (HR (Assign s ix (SrcSto t))); [now left|].
      cbn [reads_at]. exists j, b, q. auto.
Qed.

(** Any number of threads read elements, and assign lists and arrays, of arrays of
    all classes that may share their data lists.  Under every schedule that lets
    them end none of them fails, and whatever a thread reads, and whatever an array
    holds at the end, has come there along the assignments: it is a value the
    element had at the start, one that a list assigned to the element contains at
    that index, or one that the element an assignment copies to it may have had. *)
Theorem C100_values : forall programs h sched h' rs,
  Forall (Forall (flow_op h)) programs -> indices_untouched programs ->
  exec sched h (map thread programs) = (h', map Ret rs) ->
  Forall2 (fun ops r => exists xs, r = Ok xs /\ reads_give (gives h (possible h programs)) ops xs) programs rs
  /\ forall s i, valid h s -> in_box i (shape_of s) -> (forall a, In a (index_addrs s) -> untouched programs a) ->
       exists x, get_elem h' s i = Ok x /\ gives h (possible h programs) s i x.
Proof.
  intros programs h sched h' rs F HI H. set (V := possible h programs). set (K := untouched programs).
  set (R := fun (_ : nat) (_ : Z) => True). set (W := fun (_ : nat) (_ : Z) (_ : pyval) => True).
  set (Q := fun ops => fun r => match r with Ok xs => reads_give (gives h V) ops xs | Raise _ => False end).
  destruct (exec_safe h K V R W sched h (map thread programs) (map Q programs) h' (map Ret rs)) as [X1 X2].
  - split; [|reflexivity]. split; [reflexivity|]. intros a p x _ E. now constructor.
  - assert (G : forall l, (forall ops, In ops l -> In ops programs) -> Forall (Forall (flow_op h)) l ->
      Forall2 (fun (Q0 : res (list pyval) -> Prop) t => safe h K V R W Q0 t) (map Q l) (map thread l)).
    { induction l as [|ops l IH]; intros Hl Fl; [constructor|]. inversion Fl as [|? ? Fo Fr]; subst. cbn [map]. constructor.
      - assert (St : forall o, In o ops -> stated programs o) by (intros o Ho; exists ops; split; [apply Hl; now left|exact Ho]).
        apply (thread_safe h K V R W False ops); [eapply Forall_impl; [apply flow_or|exact Fo]|..|exact (fun _ _ _ _ _ => I)].
        + intros o s a Ho. apply (HI o). now apply St.
        + intros s ix value Ho Hk. now apply (Hk s ix value (St _ Ho)).
        + intros s ix value j a p x Ho Hj Hk Hx. split; [|exact I]. apply St in Ho. destruct value as [v|t]; cbn [supplies] in Hx.
          * destruct Hx as [Hx|[]]. eapply p_listed; eassumption.
          * destruct Hx as [(b & q & Hx & Hy)|[Hn ->]]; [eapply p_copied; eassumption|eapply p_unspecified; eassumption].
      - apply IH; [|exact Fr]. intros ops' Ho. apply Hl. now right. }
    now apply G.
  - exact H.
  - split.
    + assert (G : forall l rs, Forall2 (fun (Q0 : res (list pyval) -> Prop) t => safe h K V R W Q0 t) (map Q l) (map Ret rs) ->
        Forall2 (fun ops r => exists xs, r = Ok xs /\ reads_give (gives h V) ops xs) l rs).
      { induction l as [|ops l IH]; intros [|r rs0] HF; cbn [map] in HF; inversion HF as [|? ? ? ? Hr HF']; subst; constructor; [|now apply IH].
        destruct r as [xs|e]; [exists xs; split; [reflexivity|exact Hr]|contradiction]. }
      now apply G.
    + intros s i Hv Hi Hu. pose proof (run_safe h K V R W _ _ h' X1 (read_safe h K V R W s i Hv Hi Hu (fun _ _ _ => I))) as (x & Ex & Hx).
      rewrite run_get_elem in Ex; [exists x; now split| |apply (Forall2_len _ _ _ Hi)].
      apply (C94_arrays_fit h s Hv). destruct s; auto. now apply box_positive with i.
Qed.
Print Assumptions C100_values.

(** * What follows *)
Lemma epos_at (E : list (list Z * pyval)) : NoDup (map fst E) -> forall k, (k < length E)%nat -> epos E (fst (nth k E ([], VNone))) = Some k.
Proof.
  induction E as [|e E IH]; intros N k Hk; [cbn in Hk; lia|]. cbn [map] in N. inversion N as [|? ? N1 N2]; subst. cbn [epos].
  destruct k as [|k]; cbn [nth].
  - replace (lex_eqb (fst e) (fst e)) with true; [reflexivity|]. symmetry. now apply lex_eqb_eq.
  - cbn in Hk. rewrite IH by (assumption || lia). destruct (lex_eqb (fst e) _) eqn:El; [|reflexivity].
    apply lex_eqb_eq in El. exfalso. apply N1. rewrite El. apply in_map, nth_In. lia.
Qed.
Lemma kept_unique h : forall s i a p b q, in_box i (shape_of s) -> valid h s -> kept h s i a p -> kept h s i b q -> a = b /\ p = q.
Proof.
  assert (SP : forall s d E d' E' i k k', in_box i (shape_of s) -> entries h s E -> entries h s E' -> data_buffer s = Ok d -> data_buffer s = Ok d' ->
    0 <= k < zlen E -> 0 <= k' < zlen E' -> fst (nth (Z.to_nat k) E ([], VNone)) = i -> fst (nth (Z.to_nat k') E' ([], VNone)) = i ->
    baddr d = baddr d' /\ boff d + k = boff d' + k').
  { intros s d E d' E' i k k' Hi HE HE' Ed Ed' Hk Hk' Ei Ei'. assert (d' = d) by congruence. subst d'. split; [reflexivity|]. f_equal.
    pose proof (flat_data_position_ok h s E i HE Hi) as X. rewrite (flat_data_position_ok h s E' i HE' Hi) in X. unfold zlen in *.
    rewrite <- Ei in X at 2. rewrite <- Ei' in X at 1. rewrite !epos_at in X by (lia || eapply BuildFacts.ordered_NoDup, entries_ordered; eassumption).
    cbn in X. injection X as X. lia. }
  assert (S2 : forall s i a p b q, is_sparse s -> in_box i (shape_of s) -> kept h s i a p -> kept h s i b q -> a = b /\ p = q).
  { assert (S1 : forall s i a p, is_sparse s -> kept h s i a p -> exists d E k, entries h s E /\ data_buffer s = Ok d /\ 0 <= k < zlen E
      /\ fst (nth (Z.to_nat k) E ([], VNone)) = i /\ a = baddr d /\ p = boff d + k).
    { intros s i a p Hs Hk. destruct Hk as [| |s d E i k HE Ed Hk Ei|]; try contradiction. exists d, E, k. auto 6. }
    intros s i a p b q Hs Hi H1 H2. destruct (S1 _ _ _ _ Hs H1) as (d & E & k & P1 & P2 & P3 & P4 & -> & ->).
    destruct (S1 _ _ _ _ Hs H2) as (d' & E' & k' & Q1 & Q2 & Q3 & Q4 & -> & ->). exact (SP s d E d' E' i k k' Hi P1 Q1 P2 Q2 P3 Q3 P4 Q4). }
  induction s as [bf|t|sh ind d|sh fi d|sh cr co d|sh ch c0 c1 c2 d|sh rd rsh rs ro d IH]; intros i a p b q Hi Hv H1 H2;
    try (eapply S2; [|eassumption|eassumption|eassumption]; exact I);
    inversion H1; subst; try (match goal with X : entries _ (_ _) _ |- _ => now destruct X end);
    inversion H2; subst; try (match goal with X : entries _ (_ _) _ |- _ => now destruct X end).
  - now split.
  - now split.
  - destruct Hv as (f & g & Hg & Hd & _). cbn [shape_of] in Hi. eapply IH; [apply (dm_box _ _ _ _ _ _ Hd i Hi)|now exists g|eassumption|eassumption].
Qed.
Lemma get_gives h s i : valid h s -> in_box i (shape_of s) -> exists x, get_elem h s i = Ok x /\ gives h (fun a p x => hget h a p = Ok x) s i x.
Proof.
  intros Hv Hi. set (V := fun a p x => hget h a p = Ok x).
  assert (X : invariant h (fun _ => True) V h) by (split; [split; [reflexivity|intros a p x _ E; exact E]|reflexivity]).
  pose proof (run_safe h (fun _ => True) V (fun _ _ => True) (fun _ _ _ => True) _ _ h X
    (read_safe h (fun _ => True) V (fun _ _ => True) (fun _ _ _ => True) s i Hv Hi (fun _ _ => I) (fun _ _ _ => I))) as (x & Ex & Hx).
  rewrite run_get_elem in Ex; [exists x; now split| |apply (Forall2_len _ _ _ Hi)].
  apply (C94_arrays_fit h s Hv). destruct s; auto. now apply box_positive with i.
Qed.
Lemma get_kept h s i a p : valid h s -> in_box i (shape_of s) -> kept h s i a p -> get_elem h s i = hget h a p.
Proof.
  intros Hv Hi Hk. destruct (get_gives h s i Hv Hi) as (x & -> & [(b & q & Hb & Hx)|[Hn _]]); [|now apply Hn in Hk].
  destruct (kept_unique h s i a p b q Hi Hv Hk Hb) as [-> ->]. now symmetry.
Qed.
Lemma get_unkept h s i : valid h s -> in_box i (shape_of s) -> (forall a p, ~ kept h s i a p) -> get_elem h s i = Ok (unspecified_of s).
Proof.
  intros Hv Hi Hn. destruct (get_gives h s i Hv Hi) as (x & -> & [(b & q & Hb & _)|[_ ->]]); [now apply Hn in Hb|reflexivity].
Qed.

(** Elements kept where no thread assigns anything do not change. *)
Theorem C100_elsewhere : forall programs h sched h' rs,
  Forall (Forall (flow_op h)) programs -> indices_untouched programs ->
  exec sched h (map thread programs) = (h', map Ret rs) ->
  forall s i, valid h s -> in_box i (shape_of s) -> (forall a, In a (index_addrs s) -> untouched programs a) ->
    (forall t ix value j a p, stated programs (Assign t ix value) -> in_box j (slice_shape ix (shape_of t)) ->
       kept h t (source_index ix (shape_of t) j) a p -> ~ kept h s i a p) ->
    get_elem h' s i = get_elem h s i.
Proof.
  intros programs h sched h' rs F HI H s i Hv Hi Hu Hn.
  destruct (C100_values programs h sched h' rs F HI H) as [_ X]. destruct (X s i Hv Hi Hu) as (x & -> & [(a & p & Hk & Hx)|[Hk ->]]).
  - rewrite (get_kept h s i a p Hv Hi Hk). destruct Hx as [a p x Hx| | |]; [now symmetry| | |]; exfalso; eapply Hn; eassumption.
  - now rewrite get_unkept.
Qed.
Print Assumptions C100_elsewhere.

(** What is true of all elements of the arrays of the threads, and of all items of
    the lists they assign, is true of everything they read and of all elements at
    the end, whatever the schedule. *)
Theorem C100_closed : forall (P : pyval -> Prop) programs h sched h' rs,
  Forall (Forall (flow_op h)) programs -> indices_untouched programs ->
  (forall o s i x, stated programs o -> In s (arrays_of o) -> in_box i (shape_of s) -> get_elem h s i = Ok x -> P x) ->
  (forall s ix v j x, stated programs (Assign s ix (SrcSeq v)) -> in_box j (slice_shape ix (shape_of s)) -> nested_at v j = Some x -> P x) ->
  exec sched h (map thread programs) = (h', map Ret rs) ->
  Forall (fun r => exists xs, r = Ok xs /\ Forall P xs) rs
  /\ forall o s i x, stated programs o -> In s (arrays_of o) -> in_box i (shape_of s) -> get_elem h' s i = Ok x -> P x.
Proof.
  intros P programs h sched h' rs F HI H1 H2 H. destruct (C100_values programs h sched h' rs F HI H) as [X1 X2].
  assert (Fo : forall o, stated programs o -> flow_op h o).
  { intros o (ops & A & B). rewrite Forall_forall in F. specialize (F ops A). rewrite Forall_forall in F. now apply F. }
  assert (Va : forall o s, stated programs o -> In s (arrays_of o) -> valid h s).
  { intros o s Ho Hs. specialize (Fo o Ho). destruct o as [s' i|s' ix [v|t]]; cbn [arrays_of flow_op] in *.
    - destruct Hs as [<-|[]]. apply Fo.
    - destruct Hs as [<-|[]]. apply Fo.
    - destruct Hs as [<-|[<-|[]]]; [apply Fo|]. destruct Fo as (_ & _ & _ & _ & Ft & _). exact Ft. }
  assert (B : forall a p x, possible h programs a p x ->
    forall o s i, stated programs o -> In s (arrays_of o) -> in_box i (shape_of s) -> kept h s i a p -> P x).
  { induction 1 as [a p x E|s ix v j a p x So Hj Hk Ex|s ix t j a p b q x So Hj Hk Hb _ IH|s ix t j a p So Hj Hk Hn]; intros o s1 i Ho Hs Hi Hs1.
    - apply (H1 o s1 i x Ho Hs Hi). rewrite (get_kept h s1 i a p); auto. exact (Va o s1 Ho Hs).
    - exact (H2 s ix v j x So Hj Ex).
    - assert (Ft := Fo _ So). destruct Ft as (_ & _ & _ & _ & Ft & Es & _). apply (IH (Assign s ix (SrcSto t)) t j); auto; [right; now left|now rewrite Es].
    - assert (Ft := Fo _ So). destruct Ft as (_ & _ & _ & _ & Ft & Es & _). apply (H1 (Assign s ix (SrcSto t)) t j); auto; [right; now left|now rewrite Es|].
      apply get_unkept; auto. now rewrite Es. }
  assert (G : forall o s i x, stated programs o -> In s (arrays_of o) -> in_box i (shape_of s) -> gives h (possible h programs) s i x -> P x).
  { intros o s i x Ho Hs Hi [(a & p & Hk & Hx)|[Hn ->]]; [exact (B a p x Hx o s i Ho Hs Hi Hk)|].
    apply (H1 o s i _ Ho Hs Hi). apply get_unkept; auto. exact (Va o s Ho Hs). }
  split.
  - assert (R : forall ops xs, (forall o, In o ops -> stated programs o) -> reads_give (gives h (possible h programs)) ops xs -> Forall P xs).
    { induction ops as [|o ops IH]; intros xs St Hx; cbn [reads_give] in Hx; [subst; constructor|].
      assert (St' : forall o, In o ops -> stated programs o) by (intros o' Ho'; apply St; now right).
      destruct o as [s i|s ix value]; [|now apply IH]. destruct xs as [|x xs]; [contradiction|]. destruct Hx as [Hx Hr]. constructor; [|now apply IH].
      assert (So := St _ (or_introl eq_refl)). apply (G _ s i x So); [now left|apply (Fo _ So)|exact Hx]. }
    assert (L : forall l rs, (forall ops, In ops l -> In ops programs) ->
      Forall2 (fun ops r => exists xs, r = Ok xs /\ reads_give (gives h (possible h programs)) ops xs) l rs ->
      Forall (fun r => exists xs, r = Ok xs /\ Forall P xs) rs).
    { intros l rs0 Hl. induction 1 as [|ops r l rs0 (xs & -> & Hx) _ IH]; constructor.
      - exists xs. split; [reflexivity|]. apply (R ops); [|exact Hx]. intros o Ho. exists ops. split; [apply Hl; now left|exact Ho].
      - apply IH. intros ops' Ho. apply Hl. now right. }
    now apply (L programs).
  - intros o s i x Ho Hs Hi E. destruct (X2 s i (Va o s Ho Hs) Hi (fun a => HI o s a Ho Hs)) as (y & Ey & Hy).
    rewrite E in Ey. injection Ey as <-. exact (G o s i x Ho Hs Hi Hy).
Qed.
Print Assumptions C100_closed.

(** The hypotheses hold for a COO array, a Strided array and a reversed view that
    share one list, assigned to and read by three threads. *)
Definition shared_lists : heap := [map VInt [10; 20; 30]; map VInt [0; 2; 5]].
Definition sparse_view : storage := SCOO [6] (Str [1; 3] [3; 1] (Buf 3 0 1 VNone)) (Buf 3 0 0 (VInt 0)).
Definition dense_view : storage := SStrided (Str [3] [1] (Buf 3 0 0 VNone)).
Definition reversed_view : storage := SStrided (Str [3] [-1] (Buf 1 2 0 VNone)).
Definition everything : pyindex := XItem (ISlice (Sl None None None)).
Lemma sparse_view_entries : entries shared_lists sparse_view [([0], VInt 10); ([2], VInt 20); ([5], VInt 30)].
Proof.
    set (E := [([0], VInt 10); ([2], VInt 20); ([5], VInt 30)]).
    assert (HH : forall b l vs, nth_error shared_lists (baddr b) = Some l -> boff b = 0 -> bsize b = zlen vs -> l = vs -> holds shared_lists b vs).
    { intros b l vs E1 E2 E3 ->. exists vs. rewrite E2, E3. split; [exact E1|]. split; [lia|]. split; [reflexivity|]. split; [lia|]. cbn [Z.to_nat skipn].
      apply firstn_all. }
    split; [repeat constructor; lia|]. split; [discriminate|]. split.
    { split; [repeat constructor; cbn; lia|]. cbn [E map fst].
      repeat constructor; cbn; lia. }
    split; [now eapply HH|]. split; [reflexivity|]. split; [reflexivity|]. split; [now eapply HH|]. split; [discriminate|reflexivity].
Qed.
Lemma sparse_view_valid : valid shared_lists sparse_view.
Proof. eexists. exists [([0], VInt 10); ([2], VInt 20); ([5], VInt 30)]. split; [exact sparse_view_entries|reflexivity]. Qed.
Lemma dense_view_valid : valid shared_lists dense_view.
Proof.
  eexists (fun i => nth (Z.to_nat (spos (Str [3] [1] (Buf 3 0 0 VNone)) i)) (map VInt [10; 20; 30]) VNone). exists (map VInt [10; 20; 30]). split; [reflexivity|].
    split; [|reflexivity]. constructor; cbn [sshape sstrides sdata bsize boff]; try lia; try (cbn; lia); try reflexivity; try (repeat constructor; lia).
    - intros i Hi. apply box1 in Hi as (x & -> & Hx). unfold spos. cbn -[Z.mul Z.add]. lia.
    - intros i j Hi Hj. apply box1 in Hi as (x & -> & Hx). apply box1 in Hj as (y & -> & Hy). unfold spos. cbn -[Z.mul Z.add]. intros Exy. f_equal. lia.
Qed.
Lemma reversed_view_valid : valid shared_lists reversed_view.
Proof.
  eexists (fun i => nth (Z.to_nat (spos (Str [3] [-1] (Buf 1 2 0 VNone)) i)) (map VInt [10; 20; 30]) VNone). exists (map VInt [10; 20; 30]). split; [reflexivity|].
    split; [|reflexivity]. constructor; cbn [sshape sstrides sdata bsize boff]; try lia; try (cbn; lia); try reflexivity; try (repeat constructor; lia).
    - intros i Hi. apply box1 in Hi as (x & -> & Hx). unfold spos. cbn -[Z.mul Z.add]. lia.
    - intros i j Hi Hj. apply box1 in Hi as (x & -> & Hx). apply box1 in Hj as (y & -> & Hy). unfold spos. cbn -[Z.mul Z.add]. intros Exy. f_equal. lia.
Qed.
Lemma everything_ok n : 0 < n -> ok_index everything [n].
Proof. intros Hn. split; [constructor; [discriminate|constructor]|right; cbn; lia]. Qed.
Example C100_case :
  let programs := [[Assign sparse_view everything (SrcSeq (VSeq (map VInt [1; 2; 3; 4; 5; 6])))];
                   [Assign dense_view everything (SrcSto reversed_view)];
                   [Read sparse_view [5]; Read sparse_view [3]; Read dense_view [0]]] in
  Forall (Forall (flow_op shared_lists)) programs /\ indices_untouched programs
  /\ exec [0; 0; 1; 0; 0; 1; 2; 2; 2; 2; 2; 2; 2; 0; 0; 1; 1; 1; 1]%nat shared_lists (map thread programs)
     = ([map VInt [30; 3; 30]; map VInt [0; 2; 5]], map Ret [Ok []; Ok []; Ok [VInt 30; VInt 0; VInt 30]]).
Proof.
  assert (BX : forall (i : Z) n, 0 <= i < n -> in_box [i] [n]) by (intros i n Hi; constructor; [exact Hi|constructor]).
  pose proof sparse_view_valid as V1. pose proof dense_view_valid as V2. pose proof reversed_view_valid as V3.
  pose proof everything_ok as OK.
  cbv zeta. split; [|split; [|vm_compute; reflexivity]].
  - constructor; [constructor; [|constructor]|constructor; [constructor; [|constructor]|constructor; [|constructor]]].
    + split; [exact V1|]. split; [repeat constructor; lia|]. split; [apply OK; lia|]. split; [split; [exact I|discriminate]|].
      split; [reflexivity|]. split; [discriminate|]. repeat constructor.
    + split; [exact V2|]. split; [repeat constructor; lia|]. split; [apply OK; lia|]. split; [exact I|].
      split; [exact V3|]. split; [reflexivity|discriminate].
    + constructor; [split; [exact V1|apply BX; lia]|]. constructor; [split; [exact V1|apply BX; lia]|].
      constructor; [split; [exact V2|apply BX; lia]|constructor].
  - match goal with |- indices_untouched ?P => set (programs := P) end.
    assert (U : forall (s : storage) ix value, stated programs (Assign s ix value) -> data_addr s = 0%nat).
    { intros s ix value (ops & Hops & Ho). cbn [In] in Hops. destruct Hops as [<-|[<-|[<-|[]]]]; cbn [In] in Ho;
        repeat match goal with X : _ \/ _ |- _ => destruct X end; try contradiction; try discriminate;
        match goal with X : Assign _ _ _ = Assign _ _ _ |- _ => injection X as <- _ _; reflexivity end. }
    intros o s a (ops & Hops & Ho) Hs Ha s' ix value Hs'. rewrite (U _ _ _ Hs'). cbn [In] in Hops.
    destruct Hops as [<-|[<-|[<-|[]]]]; cbn [In] in Ho; repeat match goal with X : _ \/ _ |- _ => destruct X end; try contradiction; subst o;
      cbn [arrays_of In] in Hs; repeat match goal with X : _ \/ _ |- _ => destruct X end; try contradiction; subst s; cbn in Ha;
      repeat match goal with X : _ \/ _ |- _ => destruct X end; try contradiction; subst a; discriminate.
Qed.

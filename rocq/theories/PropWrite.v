(** C32-C37, C45: what assignments change.

    [setitem h s ix value] is the statement [s[ix] = value]: the heap it leaves
    and whether it raised.  [stored h s i]: index [i] occurs in s.elements(). *)
From Coq Require Import Sorting.Sorted Permutation ZifyBool.
From Verif Require Import Py SliceTools Basics Storage Spec SliceFacts IndexFacts
  CompressFacts ReduceFacts SolverFacts SolveFacts Repr ReprFacts ViewFacts BuildFacts SparseFacts
  ConvFacts FromFacts DMFacts ReadFacts MapFacts ChainFacts WriteFacts EffectFacts PropRead.

Definition stored (h : heap) (s : storage) (i : list Z) : Prop :=
  exists l x, elements h s = Ok l /\ In (KTup i, x) l.

Lemma stored_sparse h s E i : entries h s E -> positive (shape_of s) -> stored h s i <-> In i (map fst E).
Proof.
  intros HE Hp. unfold stored. rewrite (elements_sparse h s E HE Hp). split.
  - intros (l & x & El & Hin). injection El as <-. apply in_map_iff in Hin. destruct Hin as ([k y] & Ek & Hk).
    cbn in Ek. injection Ek as -> ->. now apply (in_map fst) in Hk.
  - intros Hin. apply in_map_iff in Hin. destruct Hin as ([k y] & Ek & Hk). cbn in Ek. subst k.
    eexists _, y. split; [reflexivity|]. apply in_map_iff. now exists (i, y).
Qed.

(** The elements that have a place in the data: every element of a Buffer or
    Strided array, the listed ones of a sparse array; an element of a DM array
    has one if the element of the data it stands for has. *)
Fixpoint placed (h : heap) (s : storage) (i : list Z) : Prop :=
  match s with
  | SBuffer _ | SStrided _ => True
  | SDM _ rdims _ rstrides roffset d => placed h d (dm_index rdims rstrides roffset i)
  | _ => stored h s i
  end.

Definition is_dense (s : storage) : Prop := match s with SStrided _ | SDM _ _ _ _ _ _ => True | _ => False end.

Lemma stored_dense h s f i : repr h s f -> is_dense s -> stored h s i <-> in_box i (shape_of s).
Proof.
  intros Hr Hs. unfold stored. rewrite (elements_dense h s f Hr Hs). split.
  - intros (l & x & El & Hin). injection El as <-. apply in_map_iff in Hin. destruct Hin as (k & Ek & Hk).
    injection Ek as -> _. now apply In_cart.
  - intros Hi. eexists _, (f i). split; [reflexivity|]. apply in_map_iff. exists i. split; [reflexivity|now apply In_cart].
Qed.

(** [[1, 2], [3, 4]] and [1, 2, 3]. *)
Definition nested_2x2 : pyval := VSeq [VSeq [VInt 1; VInt 2]; VSeq [VInt 3; VInt 4]].
Definition list_3 : pyval := VSeq [VInt 1; VInt 2; VInt 3].
Definition everything : pyindex := XItem (ISlice (Sl None None None)).

(** ** C32 *)

(** Holds for Strided and Buffer. *)
Theorem C32_element_assignment_partial : forall h s ix v,
  valid h s ->
  match s with
  | SStrided _ => True
  | SBuffer b => exists k, 0 <= k < bsize b /\ index_items ix = [IInt k]
  | _ => False
  end ->
  positive (shape_of s) -> ok_index ix (shape_of s) -> slice_shape ix (shape_of s) = [] ->
  let i := source_index ix (shape_of s) [] in
  exists h', setitem h s ix (SrcSeq v) = (h', Ok tt) /\ valid h' s
    /\ getitem h' s ix = Ok (IVal v, h')
    /\ get_elem h' s i = Ok v
    /\ forall j, in_box j (shape_of s) -> j <> i -> get_elem h' s j = get_elem h s j.
Proof.
  intros h s ix v [f Hr] Hs Hp Hok Hnil i.
  assert (Hi : in_box i (shape_of s)).
  { apply source_index_in_box; auto. rewrite Hnil. constructor. }
  assert (W : exists h', setitem h s ix (SrcSeq v) = (h', Ok tt) /\ repr h' s (upd f i v)).
  { destruct s; try contradiction.
    - destruct Hs as (k & Hk & Ek).
      destruct (buffer_write_element h b f ix k v Hr Hk Ek) as (h' & E1 & _ & E3). exists h'.
      assert (Ei : i = [k]).
      { unfold i, source_index. rewrite Ek. cbn [shape_of items_source]. now rewrite Z.mod_small. }
      rewrite Ei. auto.
    - destruct (strided_write_element h s f ix v Hr Hp Hok Hnil) as (h' & E1 & _ & E3). exists h'. auto. }
  destruct W as (h' & E1 & E2). exists h'. split; [exact E1|]. split; [eexists; exact E2|].
  assert (Eu : upd f i v i = v) by (unfold upd; now rewrite lex_eqb_refl).
  split; [|split].
  - rewrite (getitem_element s h' _ ix E2 Hp Hok Hnil).
    + fold i. now rewrite Eu.
    + intros b ->. exact Hs.
  - rewrite (repr_get h' s _ i E2 Hi). now rewrite Eu.
  - intros j Hj Hne. rewrite (repr_get h' s _ j E2 Hj), (repr_get h s f j Hr Hj). f_equal.
    unfold upd. destruct (lex_eqb j i) eqn:El; [|reflexivity]. now apply lex_eqb_eq in El.
Qed.
Print Assumptions C32_element_assignment_partial.

Example C32_case :
  ('(s, h) <- fromobject CStrided [] (SrcSeq nested_2x2) fo_default ;;
   '(t, h1) <- getitems h s [XTuple [ISlice (Sl None None (Some (-1))); INone]] ;;
   let '(h2, r) := setitem h1 t (XTuple [IInt 0; IInt (-1)]) (SrcSeq (VInt 9)) in
   _ <- r ;; e <- elements h2 t ;; Ok e)
  = Ok [(KTup [0; 0], VInt 3); (KTup [0; 1], VInt 9); (KTup [1; 0], VInt 1); (KTup [1; 1], VInt 2)].
Proof. vm_compute. reflexivity. Qed.

(** On the sparse classes and on DM, s[i] = v overwrites every specified element. *)
Theorem C32_overwrites_everything : forall h s ix v,
  valid h s -> is_sparse s \/ is_dm s ->
  positive (shape_of s) -> ok_index ix (shape_of s) -> slice_shape ix (shape_of s) = [] ->
  exists h', setitem h s ix (SrcSeq v) = (h', Ok tt) /\ valid h' s
    /\ forall j x, in_box j (shape_of s) -> get_elem h s j = Ok x ->
         (x <> unspecified_of s -> get_elem h' s j = Ok v)
         /\ (x = unspecified_of s -> get_elem h' s j = Ok x \/ get_elem h' s j = Ok v).
Proof.
  intros h s ix v [f Hr] Hs Hp Hok Hnil.
  destruct (element_overwrites s h f ix v Hr Hs Hp Hok Hnil) as (h' & g & E1 & E2 & E3).
  exists h'. split; [exact E1|]. split; [eexists; exact E2|]. intros j x Hj Hx.
  rewrite (repr_get h s f j Hr Hj) in Hx. injection Hx as <-. rewrite (repr_get h' s g j E2 Hj).
  destruct (E3 j Hj) as [E|[E E']].
  - rewrite E. split; auto.
  - split; [congruence|]. intros _. left. now rewrite E.
Qed.
Print Assumptions C32_overwrites_everything.

(** s = X.fromobject([[1, 2], [3, 4]]); s[0, 0] = 9; s[1, 1] was 4 and is now 9. *)
Theorem C32_element_assignment_refuted : forall c, In c [CCOO; CFlatCOO; CCSR; CDM] ->
  exists s h h', fromobject c [] (SrcSeq nested_2x2) fo_default = Ok (s, h)
    /\ setitem h s (int_tuple [0; 0]) (SrcSeq (VInt 9)) = (h', Ok tt)
    /\ get_elem h s [1; 1] = Ok (VInt 4)
    /\ get_elem h' s [1; 1] = Ok (VInt 9).
Proof.
  intros c [<-|[<-|[<-|[<-|[]]]]]; eexists _, _, _;
    (split; [vm_compute; reflexivity|]); (split; [vm_compute; reflexivity|]);
    (split; [vm_compute; reflexivity|]); vm_compute; reflexivity.
Qed.
Print Assumptions C32_element_assignment_refuted.

(** ** C33 *)

(** The classes whose slice assignment is right: Strided, the sparse classes and
    DM over Strided or Buffer. *)
Definition slice_writes (s : storage) : Prop :=
  match s with
  | SStrided _ | SCOO _ _ _ | SFlatCOO _ _ _ | SCSR _ _ _ _ => True
  | SDM _ _ _ _ _ (SStrided _) | SDM _ _ _ _ _ (SBuffer _) => True
  | _ => False
  end.

Definition value_fun (h : heap) (value : source) (j : list Z) : pyval :=
  match value with
  | SrcSeq v => match nested_at v j with Some x => x | None => VNone end
  | SrcSto s => match get_elem h s j with Ok x => x | Raise _ => VNone end
  end.

Lemma value_fun_eq h value j x : value_at h value j x -> value_fun h value j = x.
Proof.
  destruct value; cbn [value_at value_fun]; [intros ->; reflexivity|]. intros (_ & _ & ->). reflexivity.
Qed.

(** [value_at h value j x]: element [j] of the assigned nested list or array is
    [x].  [separate]: an assigned array shares no list with [s] (see C45 for the
    overlapping case). *)
Theorem C33_slice_assignment_partial : forall h s ix value,
  valid h s -> slice_writes s -> positive (shape_of s) ->
  ok_index ix (shape_of s) -> slice_shape ix (shape_of s) <> [] ->
  separate h value (data_addr s) ->
  (forall j, in_box j (slice_shape ix (shape_of s)) -> stored h s (source_index ix (shape_of s) j) ->
     exists x, value_at h value j x) ->
  exists h', setitem h s ix value = (h', Ok tt) /\ valid h' s
    /\ (forall j x, in_box j (slice_shape ix (shape_of s)) -> stored h s (source_index ix (shape_of s) j) ->
          value_at h value j x -> get_elem h' s (source_index ix (shape_of s) j) = Ok x)
    /\ (forall i, in_box i (shape_of s) -> ~ (hit ix (shape_of s) i /\ stored h s i) ->
          get_elem h' s i = get_elem h s i)
    /\ (forall i, stored h' s i <-> stored h s i).
Proof.
  intros h s ix value [f Hr] Hc Hp Hok Hne Hsep Hval.
  assert (Hread : forall a h'', data_addr s = a -> (forall b, b <> a -> nth_error h'' b = nth_error h b) ->
     forall j, in_box j (slice_shape ix (shape_of s)) -> stored h s (source_index ix (shape_of s) j) ->
     get_value h'' value j = Ok (value_fun h value j)).
  { intros a h'' <- Ho j Hj Hst. destruct (Hval j Hj Hst) as [x Hx]. rewrite (value_fun_eq _ _ _ _ Hx).
    eapply value_reads; eassumption. }
  assert (Hsrc : forall j, in_box j (slice_shape ix (shape_of s)) ->
     in_box (source_index ix (shape_of s) j) (shape_of s)) by (intros j Hj; now apply source_index_in_box).
  assert (D : is_sparse s \/ (exists t, s = SStrided t)
              \/ (exists sh rd rsh rs ro d, s = SDM sh rd rsh rs ro d /\ elem_data d)).
  { destruct s; cbn in Hc; try contradiction; cbn [is_sparse]; auto.
    - right. left. eauto.
    - right. right. destruct s; try contradiction; do 6 eexists; split; try reflexivity; exact I. }
  destruct D as [Hs|[(t & ->)|(sh & rd & rsh & rs & ro & d & -> & Hd)]].
  - destruct (sparse_entries h s f Hr Hs) as (E & HE & Hf).
    pose proof (fun i => stored_sparse h s E i HE Hp) as Hst.
    destruct (sparse_write h s E ix value (value_fun h value) HE Hp Hok Hne) as (l' & E' & E1 & E2 & E3 & E4 & E5 & E6).
    { intros l'' j Hj Hin. apply (Hread (data_addr s)); auto; [|now apply Hst].
      intros b Hb. now apply set_nth_error_other. }
    pose proof (repr_of_entries _ _ _ E2) as Hr'. eexists. split; [exact E1|]. split; [eexists; exact Hr'|].
    assert (Hst' : forall i, stored (set_nth (data_addr s) l' h) s i <-> In i (map fst E)).
    { intros i. rewrite <- E3. now apply stored_sparse. }
    split; [|split; [|intros i; now rewrite Hst', Hst]].
    + intros j x Hj Hin Hx. apply Hst in Hin. rewrite (repr_get _ _ _ _ Hr' (Hsrc j Hj)), E4 by auto.
      now rewrite (value_fun_eq _ _ _ _ Hx).
    + intros i Hi Hn. rewrite (repr_get _ _ _ _ Hr' Hi), (repr_get _ _ _ _ Hr Hi), (Hf i Hi). f_equal.
      destruct (in_dec (list_eq_dec Z.eq_dec) i (map fst E)) as [Hin|Hin].
      * apply E5. intros Hh. apply Hn. split; [exact Hh|now apply Hst].
      * now apply E6.
  - pose proof Hr as (l & Hl & Ht & Hf). pose proof (fun i => stored_dense h (SStrided t) f i Hr I) as Hst.
    cbn [shape_of data_addr] in *.
    destruct (strided_write h t l ix value (value_fun h value) Hl Ht Hp Hok) as (l' & E1 & E2 & E3 & E4).
    { intros l'' _ _ j Hj. apply (Hread (baddr (sdata t))); auto; [|now apply Hst, Hsrc].
      intros b Hb. now apply set_nth_error_other. }
    assert (Hr' : repr (set_nth (baddr (sdata t)) l' h) (SStrided t) (fun i => nth (Z.to_nat (spos t i)) l' VNone)).
    { exists l'. split; [apply set_nth_error_same, nth_error_Some; congruence|].
      split; [now apply (strided_ok_length t l)|reflexivity]. }
    eexists. split; [exact E1|]. split; [eexists; exact Hr'|]. split; [|split].
    + intros j x Hj _ Hx. rewrite (repr_get _ (SStrided t) _ _ Hr' (Hsrc j Hj)), E3 by auto.
      now rewrite (value_fun_eq _ _ _ _ Hx).
    + intros i Hi Hn. rewrite (repr_get _ (SStrided t) _ _ Hr' Hi), (repr_get _ (SStrided t) _ _ Hr Hi), (Hf i Hi). f_equal.
      apply E4; [apply (so_pos _ _ Ht i Hi)|]. intros j Hj Eq. apply Hn. split; [|now apply Hst].
      exists j. split; [exact Hj|]. symmetry. apply (so_inj _ _ Ht); auto.
    + intros i. rewrite (stored_dense _ _ _ i Hr' I). now rewrite Hst.
  - pose proof (fun i => stored_dense h _ f i Hr I) as Hst. cbn [shape_of data_addr] in *.
    destruct (dm_write h sh rd rsh rs ro d f ix value (value_fun h value) Hr Hd Hp Hok Hne)
      as (h' & f' & E1 & E2 & E3 & E4 & E5).
    { intros h'' Hu j Hj. apply (Hread (data_addr d)); auto; [|now apply Hst, Hsrc]. apply (up_other _ _ _ Hu). }
    exists h'. split; [exact E1|]. split; [eexists; exact E3|]. split; [|split].
    + intros j x Hj _ Hx. rewrite (repr_get _ (SDM sh rd rsh rs ro d) _ _ E3 (Hsrc j Hj)), E4 by auto.
      now rewrite (value_fun_eq _ _ _ _ Hx).
    + intros i Hi Hn. rewrite (repr_get _ (SDM sh rd rsh rs ro d) _ _ E3 Hi), (repr_get _ (SDM sh rd rsh rs ro d) _ _ Hr Hi).
      f_equal. apply E5; [exact Hi|]. intros Hh. apply Hn. split; [exact Hh|now apply Hst].
    + intros i. rewrite (stored_dense _ _ _ i E3 I). now rewrite Hst.
Qed.
Print Assumptions C33_slice_assignment_partial.

(** s[::-1, 1] = [7, 8] on every class of the theorem. *)
Example C33_case : forall c, In c [CStrided; CCOO; CFlatCOO; CCSR; CDM] ->
  ('(s, h) <- fromobject c [] (SrcSeq nested_2x2) fo_default ;;
   let '(h2, r) := setitem h s (XTuple [ISlice (Sl None None (Some (-1))); IInt 1]) (SrcSeq (VSeq [VInt 7; VInt 8])) in
   _ <- r ;; e <- elements h2 s ;; Ok e)
  = Ok [(KTup [0; 0], VInt 1); (KTup [0; 1], VInt 8); (KTup [1; 0], VInt 3); (KTup [1; 1], VInt 7)].
Proof. intros c [<-|[<-|[<-|[<-|[<-|[]]]]]]; vm_compute; reflexivity. Qed.

(** DM over a sparse class or over DM: s[0:1] = [[8, 9]] changes s[1, 1]. *)
Theorem C33_slice_assignment_refuted : forall c, In c [CCOO; CFlatCOO; CCSR; CDM] ->
  exists s h h' x, dm_fromobject [] (SrcSeq nested_2x2) fo_default None None c = Ok (s, h)
    /\ setitem h s (XItem (ISlice (Sl (Some 0) (Some 1) None))) (SrcSeq (VSeq [VSeq [VInt 8; VInt 9]])) = (h', Ok tt)
    /\ get_elem h s [1; 1] = Ok (VInt 4)
    /\ get_elem h' s [1; 1] = Ok x /\ x <> VInt 4.
Proof.
  intros c [<-|[<-|[<-|[<-|[]]]]]; eexists _, _, _, _;
    (split; [vm_compute; reflexivity|]); (split; [vm_compute; reflexivity|]);
    (split; [vm_compute; reflexivity|]); (split; [vm_compute; reflexivity|discriminate]).
Qed.
Print Assumptions C33_slice_assignment_refuted.

(** Buffer does not support slice assignment: it raises and changes nothing. *)
Theorem C33_buffer_slice_assignment : forall h b sl value,
  setitem h (SBuffer b) (XItem (ISlice sl)) value = (h, Raise AssertionError).
Proof. reflexivity. Qed.
Print Assumptions C33_buffer_slice_assignment.

(** ** C34 *)

(** Reading back works in Strided and Buffer, and in the other classes for
    elements that are specified (differ from the unspecified value). *)
Theorem C34_read_back_partial : forall h s ix v x,
  valid h s -> positive (shape_of s) -> ok_index ix (shape_of s) -> slice_shape ix (shape_of s) = [] ->
  getitem h s ix = Ok (IVal x, h) ->
  match s with
  | SStrided _ => True
  | SBuffer b => exists k, 0 <= k < bsize b /\ index_items ix = [IInt k]
  | _ => x <> unspecified_of s
  end ->
  exists h', setitem h s ix (SrcSeq v) = (h', Ok tt) /\ getitem h' s ix = Ok (IVal v, h').
Proof.
  intros h s ix v x [f Hr] Hp Hok Hnil Hx Hs.
  destruct (elem_data_cases s h f Hr) as [Hd|Hd].
  { destruct (C32_element_assignment_partial h s ix v) as (h' & E1 & _ & E3 & _); eauto.
    - now exists f.
    - destruct s; cbn in Hd; try contradiction; exact Hs. }
  assert (Hb : forall b, s = SBuffer b -> exists k, 0 <= k < bsize b /\ index_items ix = [IInt k]).
  { intros b ->. destruct Hd; contradiction. }
  destruct (element_overwrites s h f ix v Hr Hd Hp Hok Hnil) as (h' & g & E1 & E2 & E3).
  exists h'. split; [exact E1|]. rewrite (getitem_element s h' g ix E2 Hp Hok Hnil Hb).
  rewrite (getitem_element s h f ix Hr Hp Hok Hnil Hb) in Hx. injection Hx as Hx.
  assert (Hi : in_box (source_index ix (shape_of s) []) (shape_of s)).
  { apply source_index_in_box; auto. rewrite Hnil. constructor. }
  assert (Hne : x <> unspecified_of s).
  { destruct s; cbn in Hd; try (destruct Hd; contradiction); exact Hs. }
  destruct (E3 _ Hi) as [E|[_ E]]; [now rewrite E|congruence].
Qed.
Print Assumptions C34_read_back_partial.

(** Also for stored elements of the sparse classes that equal the unspecified value. *)
Theorem C34_stored_partial : forall h s ix v,
  valid h s -> is_sparse s -> positive (shape_of s) -> ok_index ix (shape_of s) -> slice_shape ix (shape_of s) = [] ->
  stored h s (source_index ix (shape_of s) []) ->
  exists h', setitem h s ix (SrcSeq v) = (h', Ok tt) /\ getitem h' s ix = Ok (IVal v, h').
Proof.
  intros h s ix v [f Hr] Hs Hp Hok Hnil Hst.
  destruct (sparse_entries h s f Hr Hs) as (E & HE & Hf). apply (stored_sparse h s E _ HE Hp) in Hst.
  destruct (sparse_write_element h s E ix v HE Hp Hok Hnil) as (l' & E1 & E2).
  eexists. split; [exact E1|].
  rewrite (getitem_element s _ _ ix (repr_of_entries _ _ _ E2) Hp Hok Hnil).
  - now rewrite lookup_map_snd_in.
  - intros b ->. contradiction.
Qed.
Print Assumptions C34_stored_partial.

(** An element that is not stored keeps the unspecified value; no error. *)
Theorem C34_read_back_refuted : forall h s ix v,
  valid h s -> is_sparse s -> positive (shape_of s) -> ok_index ix (shape_of s) -> slice_shape ix (shape_of s) = [] ->
  ~ stored h s (source_index ix (shape_of s) []) ->
  exists h', setitem h s ix (SrcSeq v) = (h', Ok tt) /\ getitem h' s ix = Ok (IVal (unspecified_of s), h').
Proof.
  intros h s ix v [f Hr] Hs Hp Hok Hnil Hst.
  destruct (sparse_entries h s f Hr Hs) as (E & HE & Hf). rewrite (stored_sparse h s E _ HE Hp) in Hst.
  destruct (sparse_write_element h s E ix v HE Hp Hok Hnil) as (l' & E1 & E2).
  eexists. split; [exact E1|].
  rewrite (getitem_element s _ _ ix (repr_of_entries _ _ _ E2) Hp Hok Hnil).
  - now rewrite lookup_map_snd_out.
  - intros b ->. contradiction.
Qed.
Print Assumptions C34_read_back_refuted.

(** s = X.fromobject([[1, None], [3, 4]]); s[0, 1] = 9; s[0, 1] is None. *)
Example C34_case : forall c, In c [CCOO; CFlatCOO; CCSR] ->
  ('(s, h) <- fromobject c [] (SrcSeq (VSeq [VSeq [VInt 1; VNone]; VSeq [VInt 3; VInt 4]])) fo_default ;;
   let '(h2, r) := setitem h s (int_tuple [0; 1]) (SrcSeq (VInt 9)) in
   _ <- r ;; get_elem h2 s [0; 1])
  = Ok VNone.
Proof. intros c [<-|[<-|[<-|[]]]]; vm_compute; reflexivity. Qed.

(** ** C35 *)

(** s = Strided.fromobject([1, 2, 3]); s[:] = [9] raises IndexError, and s[0] is
    9 afterwards. *)
Theorem C35_failed_assignment_refuted : exists s h h',
  fromobject CStrided [] (SrcSeq list_3) fo_default = Ok (s, h)
  /\ setitem h s everything (SrcSeq (VSeq [VInt 9])) = (h', Raise IndexError)
  /\ get_elem h s [0] = Ok (VInt 1)
  /\ get_elem h' s [0] = Ok (VInt 9).
Proof. eexists _, _, _. repeat split; vm_compute; reflexivity. Qed.
Print Assumptions C35_failed_assignment_refuted.

(** Whatever the outcome, the elements outside the selection are unchanged and
    the array stays well-formed. *)
Theorem C35_failed_assignment_partial : forall h s ix value h' r,
  valid h s -> slice_writes s -> positive (shape_of s) ->
  ok_index ix (shape_of s) -> slice_shape ix (shape_of s) <> [] ->
  setitem h s ix value = (h', r) ->
  valid h' s
  /\ (forall i, in_box i (shape_of s) -> ~ (hit ix (shape_of s) i /\ stored h s i) ->
        get_elem h' s i = get_elem h s i)
  /\ (forall i, stored h' s i <-> stored h s i).
Proof.
  intros h s ix value h' r [f Hr] Hc Hp Hok Hne Hset.
  assert (D : is_sparse s \/ (exists t, s = SStrided t)
              \/ (exists sh rd rsh rs ro d, s = SDM sh rd rsh rs ro d /\ elem_data d)).
  { destruct s; cbn in Hc; try contradiction; cbn [is_sparse]; auto.
    - right. left. eauto.
    - right. right. destruct s; try contradiction; do 6 eexists; split; try reflexivity; exact I. }
  destruct D as [Hs|[(t & ->)|(sh & rd & rsh & rs & ro & d & -> & Hd)]].
  - destruct (sparse_entries h s f Hr Hs) as (E & HE & Hf).
    pose proof (fun i => stored_sparse h s E i HE Hp) as Hst.
    destruct (sparse_write_only h s E ix value h' r HE Hp Hok Hne Hset) as (E' & E2 & E3 & E4).
    pose proof (repr_of_entries _ _ _ E2) as Hr'. split; [eexists; exact Hr'|]. split.
    + intros i Hi Hn. rewrite (repr_get _ _ _ _ Hr' Hi), (repr_get _ _ _ _ Hr Hi), (Hf i Hi). f_equal.
      destruct (in_dec (list_eq_dec Z.eq_dec) i (map fst E)) as [Hin|Hin].
      * apply E4. intros Hh. apply Hn. split; [exact Hh|now apply Hst].
      * rewrite !lookup_absent by (try rewrite E3; exact Hin). reflexivity.
    + intros i. rewrite (stored_sparse h' s E' i E2 Hp), E3. now rewrite Hst.
  - pose proof Hr as (l & Hl & Ht & Hf). pose proof (fun i => stored_dense h (SStrided t) f i Hr I) as Hst.
    cbn [shape_of data_addr] in *.
    destruct (strided_write_only h t l ix value h' r Hl Ht Hp Hok Hset) as (l' & -> & E2 & E3).
    assert (Hr' : repr (set_nth (baddr (sdata t)) l' h) (SStrided t) (fun i => nth (Z.to_nat (spos t i)) l' VNone)).
    { exists l'. split; [apply set_nth_error_same, nth_error_Some; congruence|].
      split; [now apply (strided_ok_length t l)|reflexivity]. }
    split; [eexists; exact Hr'|]. split.
    + intros i Hi Hn. rewrite (repr_get _ (SStrided t) _ _ Hr' Hi), (repr_get _ (SStrided t) _ _ Hr Hi), (Hf i Hi). f_equal.
      apply E3; [apply (so_pos _ _ Ht i Hi)|]. intros j Hj Eq. apply Hn. split; [|now apply Hst].
      exists j. split; [exact Hj|]. symmetry. apply (so_inj _ _ Ht); auto. now apply source_index_in_box.
    + intros i. rewrite (stored_dense _ _ _ i Hr' I). now rewrite Hst.
  - pose proof (fun i => stored_dense h _ f i Hr I) as Hst. cbn [shape_of data_addr] in *.
    destruct (dm_write_only h sh rd rsh rs ro d f ix value h' r Hr Hd Hp Hok Hne Hset) as (f' & E3 & E5).
    split; [eexists; exact E3|]. split.
    + intros i Hi Hn. rewrite (repr_get _ (SDM sh rd rsh rs ro d) _ _ E3 Hi), (repr_get _ (SDM sh rd rsh rs ro d) _ _ Hr Hi).
      f_equal. apply E5; [exact Hi|]. intros Hh. apply Hn. split; [exact Hh|now apply Hst].
    + intros i. rewrite (stored_dense _ _ _ i E3 I). now rewrite Hst.
Qed.
Print Assumptions C35_failed_assignment_partial.

(** A failed assignment to a Buffer changes nothing. *)
Theorem C35_buffer_partial : forall h b ix value h' e,
  setitem h (SBuffer b) ix value = (h', Raise e) -> h' = h.
Proof.
  intros h b ix value h' e. cbn [setitem]. unfold buffer_setitem, buf_write.
  destruct (buf_complete_index ix) as [[]|]; try (intros H; now injection H as <- _).
  destruct value; [|intros H; now injection H as <- _].
  destruct (buf_set h b z v); [discriminate|]. intros H. now injection H as <- _.
Qed.
Print Assumptions C35_buffer_partial.

(** ** C36 *)

(** [t'] is [t[i1][i2]...].  After any later sequence of assignments to any
    storages the slice still shows the elements of the base array. *)
Theorem C36_views_track_base : forall h t ixs,
  valid h (SStrided t) -> chain_ok ixs (sshape t) ->
  exists t', getitems h (SStrided t) ixs = Ok (SStrided t', h)
    /\ sshape t' = chain_shape ixs (sshape t)
    /\ forall ops j, in_box j (sshape t') ->
         exists x, get_elem (assigns h ops) (SStrided t') j = Ok x
           /\ get_elem (assigns h ops) (SStrided t) (chain_source ixs (sshape t) j) = Ok x.
Proof.
  intros h t ixs [f (l & Hl & Ht & _)] Hok.
  destruct (getitems_strided ixs h t l Hl Ht Hok) as (t' & E1 & E2 & E3 & E4 & E5).
  exists t'. split; [exact E1|]. split; [exact E2|]. intros ops j Hj.
  destruct (assigns_cell ops h _ l Hl) as (l' & Hl' & Hlen).
  assert (R1 : repr (assigns h ops) (SStrided t') (fun i => nth (Z.to_nat (spos t' i)) l' VNone)).
  { exists l'. rewrite E3. split; [exact Hl'|]. split; [now apply (strided_ok_length t' l)|reflexivity]. }
  assert (R2 : repr (assigns h ops) (SStrided t) (fun i => nth (Z.to_nat (spos t i)) l' VNone)).
  { exists l'. split; [exact Hl'|]. split; [now apply (strided_ok_length t l)|reflexivity]. }
  eexists. split; [exact (repr_get _ _ _ j R1 Hj)|]. rewrite (E5 j Hj).
  apply (repr_get _ _ _ _ R2). cbn [shape_of]. apply chain_source_in_box; [exact Hok|]. now rewrite <- E2.
Qed.
Print Assumptions C36_views_track_base.

(** An assignment through the slice changes the corresponding elements of the
    base array and no others. *)
Theorem C36_writes_reach_base : forall h t ixs t' ix value h' r,
  valid h (SStrided t) -> chain_ok ixs (sshape t) ->
  getitems h (SStrided t) ixs = Ok (SStrided t', h) ->
  positive (sshape t') -> ok_index ix (sshape t') ->
  setitem h (SStrided t') ix value = (h', r) ->
  (forall i, in_box i (sshape t) ->
     (forall k, hit ix (sshape t') k -> i <> chain_source ixs (sshape t) k) ->
     get_elem h' (SStrided t) i = get_elem h (SStrided t) i)
  /\ (forall j v, r = Ok tt -> value = SrcSeq v -> slice_shape ix (sshape t') = [] ->
        j = source_index ix (sshape t') [] ->
        get_elem h' (SStrided t) (chain_source ixs (sshape t) j) = Ok v).
Proof.
  intros h t ixs t' ix value h' r [f Hr] Hok Hg Hp Hx Hset. pose proof Hr as (l & Hl & Ht & Hf).
  destruct (getitems_strided ixs h t l Hl Ht Hok) as (t1 & E1 & E2 & E3 & E4 & E5).
  rewrite Hg in E1. injection E1 as <-.
  assert (Hl1 : nth_error h (baddr (sdata t')) = Some l) by now rewrite E3.
  assert (Hcs : forall k, in_box k (sshape t') -> in_box (chain_source ixs (sshape t) k) (sshape t)).
  { intros k Hk. apply chain_source_in_box; [exact Hok|]. now rewrite <- E2. }
  destruct (strided_write_only h t' l ix value h' r Hl1 E4 Hp Hx Hset) as (l' & -> & F2 & F3).
  assert (Hr' : repr (set_nth (baddr (sdata t')) l' h) (SStrided t) (fun i => nth (Z.to_nat (spos t i)) l' VNone)).
  { exists l'. rewrite E3. split; [apply set_nth_error_same, nth_error_Some; congruence|].
    split; [now apply (strided_ok_length t l)|reflexivity]. }
  split.
  - intros i Hi Hn. rewrite (repr_get _ (SStrided t) _ _ Hr' Hi), (repr_get _ (SStrided t) _ _ Hr Hi), (Hf i Hi). f_equal.
    apply F3; [apply (so_pos _ _ Ht i Hi)|]. intros j Hj Eq.
    assert (Bj : in_box (source_index ix (sshape t') j) (sshape t')) by now apply source_index_in_box.
    rewrite E5 in Eq by exact Bj. apply (so_inj _ _ Ht) in Eq; auto.
    apply (Hn (source_index ix (sshape t') j)); [|exact Eq]. exists j. auto.
  - intros j v -> -> Hnil ->.
    assert (Rt : repr h (SStrided t') (fun i => nth (Z.to_nat (spos t' i)) l VNone)).
    { exists l. split; [exact Hl1|]. split; [exact E4|reflexivity]. }
    destruct (strided_write_element h t' _ ix v Rt Hp Hx Hnil) as (h2 & G1 & _ & G3).
    rewrite Hset in G1. injection G1 as <-.
    assert (Bj : in_box (source_index ix (sshape t') []) (sshape t')).
    { apply source_index_in_box; auto. rewrite Hnil. constructor. }
    pose proof (repr_get _ (SStrided t') _ _ G3 Bj) as X. unfold upd in X. rewrite lex_eqb_refl in X.
    rewrite (repr_get _ (SStrided t) _ _ Hr' (Hcs _ Bj)). rewrite <- X.
    assert (R1 : repr (set_nth (baddr (sdata t')) l' h) (SStrided t') (fun i => nth (Z.to_nat (spos t' i)) l' VNone)).
    { exists l'. split; [apply set_nth_error_same, nth_error_Some; congruence|].
      split; [now apply (strided_ok_length t' l)|reflexivity]. }
    rewrite (repr_get _ (SStrided t') _ _ R1 Bj). f_equal. now rewrite E5.
Qed.
Print Assumptions C36_writes_reach_base.

(** s = Strided.fromobject([[1, 2], [3, 4]]); t = s[::-1][:, 1]; t[0] = 9. *)
Example C36_case :
  ('(s, h) <- fromobject CStrided [] (SrcSeq nested_2x2) fo_default ;;
   '(t, h1) <- getitems h s [XItem (ISlice (Sl None None (Some (-1)))); XTuple [INone; IInt 1]] ;;
   let '(h2, r) := setitem h1 t (XItem (IInt 0)) (SrcSeq (VInt 9)) in
   _ <- r ;; e <- elements h2 s ;; Ok e)
  = Ok [(KTup [0; 0], VInt 1); (KTup [0; 1], VInt 2); (KTup [1; 0], VInt 3); (KTup [1; 1], VInt 9)].
Proof. vm_compute. reflexivity. Qed.

(** ** C37 *)

(** A sequence of assignments to [t]; those that raise leave their partial effects. *)
Fixpoint assign_all (h : heap) (t : storage) (ops : list (pyindex * source)) : heap :=
  match ops with
  | [] => h
  | (ix, v) :: r => assign_all (fst (setitem h t ix v)) t r
  end.

Definition independent (h : heap) (s t : storage) : Prop := forall ops,
  (forall i, in_box i (shape_of s) -> get_elem (assign_all h t ops) s i = get_elem h s i)
  /\ (forall i, in_box i (shape_of t) -> get_elem (assign_all h s ops) t i = get_elem h t i).

Lemma assign_all_assigns t ops : forall h, assign_all h t ops = assigns h (map (fun o => (t, fst o, snd o)) ops).
Proof. induction ops as [|[ix v] r IH]; intros h; cbn [assign_all map assigns fst snd]; auto. Qed.

Lemma assign_all_keeps h s t f ops i : repr h s f -> ~ In (data_addr t) (addrs s) -> in_box i (shape_of s) ->
  get_elem (assign_all h t ops) s i = get_elem h s i.
Proof.
  intros Hr Hn Hi. rewrite assign_all_assigns, (repr_get h s f i Hr Hi). apply repr_get; [|exact Hi].
  apply assigns_repr; [exact Hr|]. apply Forall_forall. intros o Ho. apply in_map_iff in Ho.
  destruct Ho as (o' & <- & _). exact Hn.
Qed.

Lemma independent_intro h s t f g : repr h s f -> repr h t g ->
  ~ In (data_addr t) (addrs s) -> ~ In (data_addr s) (addrs t) -> independent h s t.
Proof. intros Hs Ht N1 N2 ops. split; intros i Hi; eapply assign_all_keeps; eassumption. Qed.

Lemma fresh_independent h h' s t f g : repr h s f -> repr h' t g -> extends h h' -> fresh h t -> independent h' s t.
Proof.
  intros Hs Ht He Hf. apply (independent_intro h' s t f g); [now apply (repr_extends h)|exact Ht| |].
  - intros Hin. apply (repr_addrs h s f _ Hs) in Hin. specialize (Hf (data_addr t) (or_introl eq_refl)). lia.
  - intros Hin. apply Hf in Hin. pose proof (repr_addrs h s f (data_addr s) Hs (or_introl eq_refl)). lia.
Qed.

Theorem C37_copies_independent : forall h s u t h',
  valid h s -> copy h s u = Ok (t, h') -> independent h' s t.
Proof.
  intros h s u t h' [f Hr] Hc.
  destruct (copy_ok s h f u Hr) as (t' & h1 & E1 & E2 & E3 & E4 & E5 & E6 & E7 & _).
  rewrite Hc in E1. injection E1 as <- <-.
  pose proof (repr_addrs h s f) as Hlt.
  eapply independent_intro; [exact (repr_extends h h' s f E4 Hr)|exact E5| |].
  - intros Hin. apply (Hlt _ Hr) in Hin. lia.
  - intros [Hin|Hin].
    + pose proof (Hlt (data_addr s) Hr (or_introl eq_refl)). lia.
    + rewrite E7 in Hin. exact (repr_data_index s h f Hr Hin).
Qed.
Print Assumptions C37_copies_independent.

(** Conversions to another class, or with an explicit unspecified value; as_DM
    always. *)
Theorem C37_conversions_independent : forall c h s u t h',
  valid h s -> positive (shape_of s) -> shape_of s <> [] -> class_rank c (shape_of s) ->
  (c = CCSR -> some_element_stays h s (chosen (unspecified_of s) u)) ->
  ~ is_class c s \/ u <> None \/ c = CDM ->
  as_storage c h s u = Ok (t, h') -> independent h' s t.
Proof.
  intros c h s u t h' [f Hr] Hp Hne Hc Hst Hd Ha.
  assert (D : c = CDM \/ c <> CDM) by (destruct c; (left; reflexivity) || (right; discriminate)).
  destruct D as [->|D].
  - assert (Hn : 0 < zlen (shape_of s)) by (destruct (shape_of s); [congruence|unfold zlen; cbn; lia]).
    assert (Hargs : dm_args (dm_is_buffer CStrided) (zlen (shape_of s)) None None).
    { apply dm_args_strict; [lia|discriminate|discriminate]. }
    pose proof (storage_reads h s f (Some (shape_of s)) u Hr Hne eq_refl) as Hreads.
    destruct (dm_fromobject_ok CStrided h (SrcSto s) (FO (Some (shape_of s)) None u) None None _ f Hreads Hp Hargs)
      as (d & h1 & E1 & E2 & E3 & E4 & E5 & E6 & E7).
    { apply (dm_class_ok_intro CStrided (shape_of s) None None (fo_get_unspec (SrcSto s) (FO (Some (shape_of s)) None u))
             (fo_value (SrcSto s) (FO (Some (shape_of s)) None u) f)); auto; [exact I|discriminate]. }
    unfold as_storage in Ha. rewrite Ha in E1. injection E1 as -> <-.
    eapply fresh_independent; [exact Hr|exact E6|exact E4|exact E5].
  - destruct (fromobject_ok c h (SrcSto s) f u) as (t' & h1 & E1 & E2 & E3 & E4 & E5 & E6 & E7 & E8).
    + split; assumption.
    + destruct c; cbn [class_rank class_ok get_shape] in *; auto; try congruence. split; [exact Hc|].
      exact (stays_specified h s f (chosen (unspecified_of s) u) Hr (Hst eq_refl)).
    + auto.
    + assert (Ea : flat_fromobject c h (SrcSto s) (fo_unspecified u) = Ok (t, h')) by (destruct c; try exact Ha; congruence).
      rewrite Ea in E1. injection E1 as <- <-.
      destruct (E8 s eq_refl) as [(-> & -> & ->)|Hf]; [exfalso; destruct Hd as [Hd|[Hd|Hd]]; tauto|].
      eapply fresh_independent; [exact Hr|exact E6|exact E5|exact Hf].
Qed.
Print Assumptions C37_conversions_independent.

Theorem C37_as_DM_independent : forall h s dimensions partitioning c u t h',
  valid h s -> positive (shape_of s) ->
  mapping_ok (zlen (shape_of s)) dimensions partitioning ->
  dm_rank_ok c (n_groups c (zlen (shape_of s)) partitioning) ->
  (c = CCSR -> some_element_stays h s (chosen (unspecified_of s) u)) ->
  as_DM h s dimensions partitioning c u = Ok (t, h') -> independent h' s t.
Proof.
  intros h s dimensions partitioning c u t h' [f Hr] Hp [Hn Hd Hpart] Hc Hst Ha.
  assert (Hne : shape_of s <> []) by (intros E; rewrite E in Hn; discriminate).
  pose proof (dm_args_strict (dm_is_buffer c) _ _ _ Hn Hd Hpart) as Hargs.
  pose proof (storage_reads h s f (Some (shape_of s)) u Hr Hne eq_refl) as Hreads.
  destruct (dm_fromobject_ok c h (SrcSto s) (FO (Some (shape_of s)) None u) dimensions partitioning _ f Hreads Hp Hargs)
    as (d & h1 & E1 & E2 & E3 & E4 & E5 & E6 & E7).
  { apply (dm_class_ok_intro c (shape_of s) dimensions partitioning (chosen (unspecified_of s) u)
             (fo_value (SrcSto s) (FO (Some (shape_of s)) None u) f)); auto.
    intros Ec. exact (stays_specified h s f (chosen (unspecified_of s) u) Hr (Hst Ec)). }
  unfold as_DM in Ha. rewrite Ha in E1. injection E1 as -> <-.
  eapply fresh_independent; [exact Hr|exact E6|exact E4|exact E5].
Qed.
Print Assumptions C37_as_DM_independent.

Theorem C37_sparse_slices_independent : forall h s ixs t h',
  valid h s -> is_sparse s -> chain_ok ixs (shape_of s) -> ixs <> [] ->
  getitems h s ixs = Ok (t, h') -> independent h' s t.
Proof.
  intros h s ixs t h' [f Hr] Hs Hok Hne Hg.
  assert (Hpl : plain s) by (destruct s; try contradiction; exact I).
  destruct (getitems_plain ixs s h f Hr Hpl Hok) as (s' & h1 & E1 & E2 & E3 & E4 & E5 & E6 & _ & E8).
  rewrite Hg in E1. injection E1 as <- <-. destruct (E8 Hs) as [_ Hf].
  eapply fresh_independent; [exact Hr|exact E5|exact E4|now apply Hf].
Qed.
Print Assumptions C37_sparse_slices_independent.

(** A COO and its copy, a CSR and its slice. *)
Example C37_case :
  ('(s, h) <- fromobject CCOO [] (SrcSeq nested_2x2) fo_default ;;
   '(t, h1) <- copy h s None ;;
   let h2 := assign_all h1 t [(everything, SrcSeq (VSeq [VSeq [VInt 5; VInt 6]; VSeq [VInt 7; VInt 8]]))] in
   let h3 := assign_all h2 s [(int_tuple [0; 0], SrcSeq (VInt 0))] in
   x <- elements h3 s ;; y <- elements h3 t ;; Ok (map snd x, map snd y))
  = Ok ([VInt 0; VInt 0; VInt 0; VInt 0], [VInt 5; VInt 6; VInt 7; VInt 8]).
Proof. vm_compute. reflexivity. Qed.

(** ** C45 *)

(** s = Strided.fromobject([1, 2, 3]); s[:] = s[::-1] gives [3, 2, 3]. *)
Theorem C45_overlapping_refuted : exists s h t h',
  fromobject CStrided [] (SrcSeq list_3) fo_default = Ok (s, h)
  /\ getitem h s (XItem (ISlice (Sl None None (Some (-1))))) = Ok (ISto t, h)
  /\ setitem h s everything (SrcSto t) = (h', Ok tt)
  /\ get_elem h t [2] = Ok (VInt 1)
  /\ get_elem h' s [2] = Ok (VInt 3).
Proof. eexists _, _, _, _. repeat split; vm_compute; reflexivity. Qed.
Print Assumptions C45_overlapping_refuted.

(** It holds whenever no element is written before it is read; in particular for
    disjoint selections. *)
Theorem C45_overlapping_partial : forall h t ix1 ix2 t2,
  valid h (SStrided t) -> positive (sshape t) ->
  ok_index ix1 (sshape t) -> ok_index ix2 (sshape t) ->
  slice_shape ix1 (sshape t) = slice_shape ix2 (sshape t) -> slice_shape ix1 (sshape t) <> [] ->
  getitem h (SStrided t) ix2 = Ok (ISto (SStrided t2), h) ->
  (forall j k, in_box j (slice_shape ix1 (sshape t)) -> in_box k (slice_shape ix1 (sshape t)) ->
     row_major_lt j k -> source_index ix1 (sshape t) j <> source_index ix2 (sshape t) k) ->
  exists h', setitem h (SStrided t) ix1 (SrcSto (SStrided t2)) = (h', Ok tt)
    /\ valid h' (SStrided t)
    /\ (forall j, in_box j (slice_shape ix1 (sshape t)) ->
          get_elem h' (SStrided t) (source_index ix1 (sshape t) j)
          = get_elem h (SStrided t) (source_index ix2 (sshape t) j))
    /\ (forall i, in_box i (sshape t) -> ~ hit ix1 (sshape t) i ->
          get_elem h' (SStrided t) i = get_elem h (SStrided t) i).
Proof.
  intros h t ix1 ix2 t2 [f Hr] Hp Hok1 Hok2 Hsh Hne Hg Hord. pose proof Hr as (l & Hl & Ht & Hf).
  destruct (strided_overlap h t l ix1 ix2 t2 Hl Ht Hp Hok1 Hok2 Hsh Hne Hg Hord) as (l' & E1 & E2 & E3 & E4).
  assert (Hr' : repr (set_nth (baddr (sdata t)) l' h) (SStrided t) (fun i => nth (Z.to_nat (spos t i)) l' VNone)).
  { exists l'. split; [apply set_nth_error_same, nth_error_Some; congruence|].
    split; [now apply (strided_ok_length t l)|reflexivity]. }
  eexists. split; [exact E1|]. split; [eexists; exact Hr'|]. split.
  - intros j Hj.
    assert (B1 : in_box (source_index ix1 (sshape t) j) (sshape t)) by now apply source_index_in_box.
    assert (B2 : in_box (source_index ix2 (sshape t) j) (sshape t)) by (apply source_index_in_box; auto; now rewrite <- Hsh).
    rewrite (repr_get _ (SStrided t) _ _ Hr' B1), (repr_get _ (SStrided t) _ _ Hr B2), (Hf _ B2). f_equal. now apply E3.
  - intros i Hi Hn. rewrite (repr_get _ (SStrided t) _ _ Hr' Hi), (repr_get _ (SStrided t) _ _ Hr Hi), (Hf i Hi). f_equal.
    apply E4; [apply (so_pos _ _ Ht i Hi)|]. intros j Hj Eq. apply Hn. exists j. split; [exact Hj|].
    symmetry. apply (so_inj _ _ Ht); auto. now apply source_index_in_box.
Qed.
Print Assumptions C45_overlapping_partial.

(** The shift s[:-1] = s[1:] meets the condition. *)
Example C45_case :
  (forall j k, in_box j [2] -> in_box k [2] -> row_major_lt j k ->
     source_index (XItem (ISlice (Sl None (Some (-1)) None))) [3] j
     <> source_index (XItem (ISlice (Sl (Some 1) None None))) [3] k)
  /\ ('(s, h) <- fromobject CStrided [] (SrcSeq list_3) fo_default ;;
      '(t, h1) <- getitems h s [XItem (ISlice (Sl (Some 1) None None))] ;;
      let '(h2, r) := setitem h1 s (XItem (ISlice (Sl None (Some (-1)) None))) (SrcSto t) in
      _ <- r ;; e <- elements h2 s ;; Ok (map snd e))
     = Ok [VInt 2; VInt 3; VInt 3].
Proof.
  split; [|vm_compute; reflexivity]. intros j k Hj Hk Hlt.
  inversion Hj as [|x ? j' ? Hx Hj']; subst. inversion Hj'; subst.
  inversion Hk as [|y ? k' ? Hy Hk']; subst. inversion Hk'; subst.
  assert (x < y) by (inversion Hlt as [? ? ? ? H|? ? ? H]; subst; [exact H|inversion H]).
  assert (x = 0) as -> by lia. assert (y = 1) as -> by lia. discriminate.
Qed.

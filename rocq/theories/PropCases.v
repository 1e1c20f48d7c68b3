(** Concrete arrays that meet the hypotheses of the theorems on arrays: for each
    theorem below an example of the same name with [_case] states its hypotheses
    for arrays a user makes with a few statements. *)
From Verif Require Import Py SliceTools Basics Storage Spec SliceFacts IndexFacts CompressFacts ReduceFacts SolverFacts
  SolveFacts Repr ReprFacts ViewFacts BuildFacts SparseFacts ConvFacts FromFacts MapFacts DMFacts ReadFacts ChainFacts WriteFacts EqFacts
  PropRead PropWrite PropEq PropReach.
From Verif Require Enumerate.
From Coq Require Import String.
From Verif Require PropIndex PropEnum PropMore PropLen PropNested PropValues PropLoop PropCompare PropSeq PropText PropFlow PropCopies.
From Coq Require Import List Permutation Sorted.
Local Open Scope list_scope.
Import ListNotations.

(** The arrays: a Buffer, a Strided and a view of it with steps in the other
    direction, one array of each sparse class and a DM, with the lists they are made of. *)
Definition demo : list op :=
  [New CBuffer list_3 None; New CStrided nested_2x3 None;
   Slice 1 (XTuple [INone; ISlice (Sl None None (Some (-2)))]);
   New CCOO nested_2x3 (Some (VInt 0)); As 3 CFlatCOO None; As 3 CCSR None; New CDM nested_2x3 None].
Definition demo_heap : heap := Eval vm_compute in sheap (run demo).
Definition demo_array (k : nat) : storage := nth k (map vsto (vars (run demo))) (SBuffer (Buf 0 0 0 VNone)).
Definition a_buffer := Eval vm_compute in demo_array 0.
Definition a_strided := Eval vm_compute in demo_array 1.
Definition a_view := Eval vm_compute in demo_array 2.
Definition a_coo := Eval vm_compute in demo_array 3.
Definition a_flatcoo := Eval vm_compute in demo_array 4.
Definition a_csr := Eval vm_compute in demo_array 5.
Definition a_dm := Eval vm_compute in demo_array 6.

Lemma demo_legal : legal demo.
Proof.
  unfold demo. assert (P : positive [2; 3]) by (repeat constructor; lia).
  do 7 only 1: match goal with |- legal ?l =>
    let l' := eval compute in (firstn (length l - 1) l) in
    let x := eval compute in (skipn (length l - 1) l) in
    match x with [?o] => change l with (l' ++ [o]); apply legal_add end end.
  - apply legal_nil.
  - exists [3]. split; [repeat (split || constructor); cbn; discriminate|]. split; [reflexivity|discriminate].
  - exists [2; 3]. split; [repeat (split || constructor); cbn; discriminate|]. split; [exact I|discriminate].
  - eexists. split; [vm_compute; reflexivity|]. split; [exact P|].
    split; [split; [repeat constructor; cbn; lia || discriminate|right; cbn; lia]|].
    split; [discriminate|intros []].
  - exists [2; 3]. split; [repeat (split || constructor); cbn; discriminate|]. split; [discriminate|discriminate].
  - eexists. split; [vm_compute; reflexivity|]. split; [exact P|]. split; [discriminate|]. split; [discriminate|discriminate].
  - eexists. split; [vm_compute; reflexivity|]. split; [exact P|]. split; [discriminate|]. split; [reflexivity|].
    intros _. exists [0; 0], (VInt 1). split; [repeat constructor; lia|]. split; [vm_compute; reflexivity|].
    split; discriminate.
  - exists [2; 3]. split; [repeat (split || constructor); cbn; discriminate|]. split; [split; [discriminate|exact P]|discriminate].
Qed.
Lemma all_valid h : forall (L : list var), (forall x, In x L -> valid h (vsto x)) -> Forall (valid h) (map vsto L).
Proof. induction L as [|x L IH]; intros H; [constructor|]. cbn [map]. constructor; [apply H; now left|apply IH; intros y Hy; apply H; now right]. Qed.
Lemma run_all : Forall (valid (sheap (run demo))) (map vsto (vars (run demo))).
Proof. apply all_valid. intros x Hx. exact (proj1 (C49_well_formed demo x demo_legal Hx)). Qed.
Lemma demo_run : map vsto (vars (run demo)) = [a_buffer; a_strided; a_view; a_coo; a_flatcoo; a_csr; a_dm] /\ sheap (run demo) = demo_heap.
Proof. split; vm_compute; reflexivity. Qed.
Lemma demo_valid : Forall (valid demo_heap) [a_buffer; a_strided; a_view; a_coo; a_flatcoo; a_csr; a_dm].
Proof. pose proof run_all as H. destruct demo_run as [E1 E2]. now rewrite E1, E2 in H. Qed.
Lemma valid_nth k s : nth_error [a_buffer; a_strided; a_view; a_coo; a_flatcoo; a_csr; a_dm] k = Some s -> valid demo_heap s.
Proof. intros H. apply nth_error_In in H. exact (proj1 (Forall_forall _ _) demo_valid s H). Qed.
Lemma v_buffer : valid demo_heap a_buffer. Proof. now apply (valid_nth 0). Qed.
Lemma v_strided : valid demo_heap a_strided. Proof. now apply (valid_nth 1). Qed.
Lemma v_view : valid demo_heap a_view. Proof. now apply (valid_nth 2). Qed.
Lemma v_coo : valid demo_heap a_coo. Proof. now apply (valid_nth 3). Qed.
Lemma v_flatcoo : valid demo_heap a_flatcoo. Proof. now apply (valid_nth 4). Qed.
Lemma v_csr : valid demo_heap a_csr. Proof. now apply (valid_nth 5). Qed.
Lemma v_dm : valid demo_heap a_dm. Proof. now apply (valid_nth 6). Qed.

(** Slices [::2], [1:], [::-1] and an element, as a user writes them. *)
Definition by_two := XTuple [INone; ISlice (Sl None None (Some 2))].
Definition from_one := XTuple [INone; ISlice (Sl (Some 1) None None)].
Definition to_last := XTuple [INone; ISlice (Sl None (Some (-1)) None)].
Definition backwards := XItem (ISlice (Sl None None (Some (-1)))).
Definition element_02 := XTuple [IInt 0; IInt (-1)].

Lemma box2 i j n m : 0 <= i < n -> 0 <= j < m -> in_box [i; j] [n; m].
Proof. intros Hi Hj. constructor; [exact Hi|constructor; [exact Hj|constructor]]. Qed.
Lemma ok_two a b n m : ok_item a -> ok_item b -> ok_index (XTuple [a; b]) [n; m].
Proof. intros Ha Hb. split; [constructor; [exact Ha|constructor; [exact Hb|constructor]]|right; cbn; lia]. Qed.
Lemma ok_one a n m : ok_item a -> ok_index (XItem a) [n; m].
Proof. intros Ha. split; [constructor; [exact Ha|constructor]|right; cbn; lia]. Qed.

Ltac meet :=
  lazymatch goal with
  | |- _ /\ _ => split; meet
  | |- valid _ _ => solve [exact v_buffer|exact v_strided|exact v_view|exact v_coo|exact v_flatcoo|exact v_csr|exact v_dm]
  | |- positive _ => solve [repeat constructor; cbn; lia]
  | |- nonneg _ => solve [repeat constructor; cbn; lia]
  | |- ok_index _ _ => solve [first [apply ok_two|apply ok_one]; cbn; trivial; discriminate]
  | |- _ <> _ => solve [vm_compute; discriminate]
  | |- in_box _ _ => solve [apply box2; lia]
  | |- True => exact I
  | |- _ = _ => solve [vm_compute; reflexivity]
  | |- _ => try exact I
  end.

Lemma map_ok : mapping_ok 2 (Some [1; 0]) (Some [1]).
Proof. constructor; [reflexivity| |]; intros ? E; injection E as <-; [apply perm_swap|]. split; repeat constructor. Qed.
Lemma view_stays : some_element_stays demo_heap a_view (VInt 0).
Proof. exists [0; 0], (VInt 3). meet. Qed.
Lemma in_nested_2x3 i : in_box i [2; 3] -> In i (cart [2; 3]).
Proof. intros H. now apply In_cart. Qed.

Example C24_as_DM_case :
  valid demo_heap a_view /\ positive (shape_of a_view)
  /\ mapping_ok (zlen (shape_of a_view)) (Some [1; 0]) (Some [1])
  /\ dm_rank_ok CCSR (n_groups CCSR (zlen (shape_of a_view)) (Some [1]))
  /\ some_element_stays demo_heap a_view (chosen (unspecified_of a_view) (Some (VInt 0))).
Proof. meet; [exact map_ok|reflexivity|exact view_stays]. Qed.
Example C24_conversion_case :
  valid demo_heap a_view /\ positive (shape_of a_view) /\ shape_of a_view <> [] /\ class_rank CCSR (shape_of a_view)
  /\ some_element_stays demo_heap a_view (chosen (unspecified_of a_view) (Some (VInt 0))).
Proof. meet; [reflexivity|exact view_stays]. Qed.
Example C32_overwrites_everything_case :
  valid demo_heap a_csr /\ is_sparse a_csr /\ valid demo_heap a_dm /\ is_dm a_dm /\ positive [2; 3]
  /\ ok_index element_02 [2; 3] /\ slice_shape element_02 [2; 3] = [].
Proof. meet. Qed.
Example C34_read_back_partial_case :
  valid demo_heap a_csr /\ positive (shape_of a_csr) /\ ok_index element_02 (shape_of a_csr)
  /\ slice_shape element_02 (shape_of a_csr) = []
  /\ getitem demo_heap a_csr element_02 = Ok (IVal (VInt 3), demo_heap) /\ VInt 3 <> unspecified_of a_csr.
Proof. meet. Qed.
Example C34_stored_partial_case :
  valid demo_heap a_csr /\ is_sparse a_csr /\ positive (shape_of a_csr) /\ ok_index element_02 (shape_of a_csr)
  /\ slice_shape element_02 (shape_of a_csr) = []
  /\ stored demo_heap a_csr (source_index element_02 (shape_of a_csr) []).
Proof. meet. exists [(KTup [0; 0], VInt 1); (KTup [0; 2], VInt 3); (KTup [1; 1], VInt 5)], (VInt 3). split; [vm_compute; reflexivity|]. right. left. vm_compute. reflexivity. Qed.
Example C35_failed_assignment_partial_case :
  valid demo_heap a_flatcoo /\ slice_writes a_flatcoo /\ positive (shape_of a_flatcoo)
  /\ ok_index backwards (shape_of a_flatcoo) /\ slice_shape backwards (shape_of a_flatcoo) <> []
  /\ snd (setitem demo_heap a_flatcoo backwards (SrcSeq (VSeq [VSeq [VInt 7; VInt 8; VInt 9]; VSeq []]))) = Raise IndexError.
Proof. meet. Qed.
Example C36_chain_case :
  valid demo_heap a_strided /\ chain_ok [by_two; backwards] (shape_of a_strided)
  /\ getitems demo_heap a_strided [by_two; backwards] = Ok (SStrided (Str [2; 2] [-3; 2] (Buf 3 3 1 VNone)), demo_heap)
  /\ positive [2; 2] /\ ok_index element_02 [2; 2] /\ slice_shape element_02 [2; 2] = []
  /\ snd (setitem demo_heap (SStrided (Str [2; 2] [-3; 2] (Buf 3 3 1 VNone))) element_02 (SrcSeq (VInt 9))) = Ok tt.
Proof. meet. cbn [chain_ok shape_of a_strided]. change (slice_shape by_two [2; 3]) with [2; 2]. meet. Qed.
Example C37_cases :
  (exists t h', copy demo_heap a_dm (Some (VInt 7)) = Ok (t, h'))
  /\ class_rank CCSR (shape_of a_view) /\ ~ is_class CCSR a_view
  /\ (exists t h', as_storage CCSR demo_heap a_view (Some (VInt 0)) = Ok (t, h'))
  /\ (exists t h', as_DM demo_heap a_view (Some [1; 0]) (Some [1]) CCSR (Some (VInt 0)) = Ok (t, h'))
  /\ is_sparse a_coo /\ chain_ok [by_two; backwards] (shape_of a_coo)
  /\ (exists t h', getitems demo_heap a_coo [by_two; backwards] = Ok (t, h')).
Proof.
  split; [eexists _, _; vm_compute; reflexivity|]. split; [reflexivity|]. split; [intros []|].
  split; [eexists _, _; vm_compute; reflexivity|]. split; [eexists _, _; vm_compute; reflexivity|].
  split; [exact I|]. split; [cbn [chain_ok shape_of a_coo]; change (slice_shape by_two [2; 3]) with [2; 2]; meet|].
  eexists _, _; vm_compute; reflexivity.
Qed.

(** Arrays made independently of each other from the same list. *)
Lemma built_coo h s l : is_sparse s -> elements h s = Ok l -> forallb (fun e => negb (veqb (snd e) (unspecified_of s))) l = true ->
  match s with SStrided _ => False | _ => True end -> as_built h s.
Proof.
  intros _ E F Hs. split; [|destruct s; [exact I|contradiction|exact I..]]. intros _ l' i x E' Hin. rewrite E in E'. injection E' as <-.
  rewrite forallb_forall in F. specialize (F _ Hin). cbn [snd] in F. intros ->. rewrite veqb_refl in F. discriminate.
Qed.
Example C39_cases :
  valid demo_heap a_coo /\ as_built demo_heap a_coo /\ is_sparse a_coo /\ same_class a_coo a_coo /\ forward a_coo
  /\ valid demo_heap a_strided /\ as_built demo_heap a_strided /\ forward a_strided /\ ~ forward a_view
  /\ positive (shape_of a_coo)
  /\ storage_eq demo_heap a_coo a_coo = Ok true /\ storage_eq demo_heap a_strided a_view = Ok false.
Proof.
  meet.
  - now apply (built_coo _ _ [(KTup [0; 0], VInt 1); (KTup [0; 2], VInt 3); (KTup [1; 1], VInt 5)]).
  - split; [intros []|]. split; reflexivity.
  - repeat constructor; lia.
  - intros H. inversion H as [|? ? _ H2]; subst. inversion H2; subst. lia.
Qed.
Example C39_dm_exact_case : exists sh rd rsh rs ro d, a_dm = SDM sh rd rsh rs ro d
  /\ valid demo_heap (SDM sh rd rsh rs ro d) /\ as_built demo_heap d /\ same_class d d /\ positive (shape_of d)
  /\ forall j, in_box j (shape_of d) -> exists i, in_box i sh /\ dm_index rd rs ro i = j.
Proof.
  eexists _, _, _, _, _, _. split; [reflexivity|]. split; [exact v_dm|]. split; [split; [intros []|split; reflexivity]|].
  split; [exact I|]. split; [repeat constructor; lia|]. intros j Hj. exists j. split; [exact Hj|]. apply In_cart in Hj.
  vm_compute in Hj. repeat (destruct Hj as [<-|Hj]; [reflexivity|]). contradiction.
Qed.
Example C40_cases :
  valid demo_heap a_coo /\ valid demo_heap a_csr /\ not_buffer a_coo /\ is_sparse a_coo /\ is_sparse a_csr
  /\ positive (shape_of a_coo) /\ shape_of a_coo = shape_of a_csr /\ unspecified_of a_coo = unspecified_of a_csr
  /\ no_stored_unspecified demo_heap a_coo /\ no_stored_unspecified demo_heap a_csr
  /\ is_dense a_dm /\ is_dense a_strided /\ valid demo_heap a_buffer /\ regular [2; 3] nested_2x3
  /\ equal demo_heap a_coo (SrcSto a_csr) = Ok true /\ equal demo_heap a_dm (SrcSto a_strided) = Ok true
  /\ equal demo_heap a_dm (SrcSeq nested_2x3) = Ok true /\ equal demo_heap a_coo (SrcSto a_dm) = Ok false.
Proof.
  assert (N : forall s, elements demo_heap s = Ok [(KTup [0; 0], VInt 1); (KTup [0; 2], VInt 3); (KTup [1; 1], VInt 5)] ->
    get_elem demo_heap s [0; 0] = Ok (VInt 1) -> get_elem demo_heap s [0; 2] = Ok (VInt 3) -> get_elem demo_heap s [1; 1] = Ok (VInt 5) ->
    unspecified_of s = VInt 0 -> no_stored_unspecified demo_heap s).
  { intros s E G1 G2 G3 U i (l & x & El & Hin). rewrite E in El. injection El as <-. rewrite U.
    destruct Hin as [Hin|[Hin|[Hin|[]]]]; injection Hin as <- _; rewrite ?G1, ?G2, ?G3; discriminate. }
  meet; try (apply N; reflexivity). repeat (split || constructor); cbn; discriminate.
Qed.
Example C41_cases :
  valid demo_heap a_dm /\ is_dense a_dm /\ valid demo_heap a_csr /\ is_sparse a_csr /\ positive (shape_of a_csr)
  /\ valid demo_heap a_buffer
  /\ elements demo_heap a_csr = Ok [(KTup [0; 0], VInt 1); (KTup [0; 2], VInt 3); (KTup [1; 1], VInt 5)]
  /\ elements demo_heap a_buffer = Ok [(KInt 0, VInt 1); (KInt 1, VInt 2); (KInt 2, VInt 3)].
Proof. meet. Qed.
Example C43_no_exception_case :
  valid demo_heap a_csr /\ (forall b, a_csr <> SBuffer b) /\ positive (shape_of a_csr) /\ ok_index by_two (shape_of a_csr) /\ plain a_csr
  /\ (length (index_items by_two) <= length (shape_of a_csr))%nat.
Proof. meet; [discriminate|cbn; lia]. Qed.
Example C44_windows_compose_case :
  valid demo_heap a_buffer
  /\ exists w w', getitem demo_heap a_buffer (PropIndex.window 0 3) = Ok (ISto (SBuffer w), demo_heap)
     /\ getitem demo_heap (SBuffer w) (PropIndex.window 1 3) = Ok (ISto (SBuffer w'), demo_heap)
     /\ get_elem demo_heap (SBuffer w') [1] = Ok (VInt 3).
Proof. meet. eexists _, _. meet. Qed.
Example C51_cases :
  valid demo_heap a_csr /\ (forall b, a_csr <> SBuffer b) /\ positive (shape_of a_csr) /\ ok_index by_two (shape_of a_csr)
  /\ slice_shape by_two (shape_of a_csr) <> [] /\ in_box [0; 2] (shape_of a_csr)
  /\ Enumerate.data_position demo_heap a_csr [0; 2] = Ok (Some (Enumerate.DInt 1)).
Proof. meet. discriminate. Qed.
Example C54_is_full_partial_case : valid demo_heap a_csr /\ plain a_csr /\ positive (shape_of a_csr)
  /\ is_full a_csr = Ok false /\ is_full a_strided = Ok true.
Proof. meet. Qed.
Example C61_gather_case :
  nonneg [3; 2] /\ class_rank CCSR [3; 2]
  /\ (forall i, in_box i [3; 2] -> exists j, PropMore.maps_to (Some (fun i => Ok (rev i))) i j
        /\ PropMore.source_elem demo_heap (SrcSto a_strided) j (nth (Z.to_nat (3 * nth 1 i 0 + nth 0 i 0)) (nth 1 demo_heap []) VNone))
  /\ mapping_ok 2 (Some [1; 0]) (Some [1]).
Proof.
  meet; [reflexivity| |exact map_ok]. intros i Hi. apply In_cart in Hi. vm_compute in Hi.
  repeat (destruct Hi as [<-|Hi]; [eexists; split; [reflexivity|split; [discriminate|vm_compute; reflexivity]]|]). contradiction.
Qed.

(** [a[:, :-1] = a[:, 1:]] reads every element before it is overwritten. *)
Example C45_overlapping_case : exists t t2, a_strided = SStrided t
  /\ valid demo_heap (SStrided t) /\ positive (sshape t) /\ ok_index to_last (sshape t) /\ ok_index from_one (sshape t)
  /\ slice_shape to_last (sshape t) = slice_shape from_one (sshape t) /\ slice_shape to_last (sshape t) <> []
  /\ getitem demo_heap (SStrided t) from_one = Ok (ISto (SStrided t2), demo_heap)
  /\ (forall j k, in_box j (slice_shape to_last (sshape t)) -> in_box k (slice_shape to_last (sshape t)) ->
        row_major_lt j k -> source_index to_last (sshape t) j <> source_index from_one (sshape t) k).
Proof.
  eexists _, _. split; [reflexivity|]. meet. intros j k Hj Hk Hlt. change (slice_shape to_last _) with [2; 2] in Hj, Hk.
  inversion Hj as [|a n j' ? Ha Hj']; subst. inversion Hj' as [|b m j'' ? Hb Hj'']; subst. inversion Hj''; subst.
  inversion Hk as [|c n k' ? Hc Hk']; subst. inversion Hk' as [|d m k'' ? Hd Hk'']; subst. inversion Hk''; subst.
  assert (Ca : a = 0 \/ a = 1) by lia. assert (Cb : b = 0 \/ b = 1) by lia.
  assert (Cc : c = 0 \/ c = 1) by lia. assert (Cd : d = 0 \/ d = 1) by lia.
  destruct Ca as [-> | ->], Cb as [-> | ->], Cc as [-> | ->], Cd as [-> | ->]; try (vm_compute; discriminate);
    exfalso; repeat match goal with H : row_major_lt _ _ |- _ => inversion H; clear H; subst; try lia end.
Qed.
Example C70_cases : exists t, a_view = SStrided t /\ valid demo_heap (SStrided t) /\ positive (sshape t)
  /\ valid demo_heap a_buffer
  /\ PropText.strided_str PropText.show_ints demo_heap t = Ok (Version.T "[ [3, 1]"%string ++ [Ascii.ascii_of_nat 10] ++ Version.T "  [0, None]"%string ++ [Ascii.ascii_of_nat 10] ++ Version.T "]"%string).
Proof. eexists. split; [reflexivity|]. meet. Qed.
Example C76_cases :
  valid demo_heap a_csr /\ plain a_csr /\ positive (shape_of a_csr) /\ shape_of a_csr <> []
  /\ length (strides_of a_csr) = length (shape_of a_csr)
  /\ (exists s h, getitem demo_heap a_csr backwards = Ok (ISto s, h))
  /\ regular [2; 3] nested_2x3 /\ class_rank CCSR [2; 3]
  /\ (exists i x, in_box i [2; 3] /\ nested_at nested_2x3 i = Some x /\ x <> VNone /\ x <> chosen VNone (Some (VInt 0))).
Proof.
  meet.
  - eexists _, _. vm_compute. reflexivity.
  - repeat (split || constructor); cbn; discriminate.
  - reflexivity.
  - exists [1; 1], (VInt 5). meet.
Qed.
Example C83_stacked_case :
  Forall (fun t => PropNested.one_by_one demo_heap t /\ shape_of t = [2; 3]) [a_strided; a_coo; a_csr]
  /\ class_rank CFlatCOO [3; 2; 3]
  /\ (forall t i x, In t [a_strided; a_coo; a_csr] -> in_box i [2; 3] -> get_elem demo_heap t i = Ok x -> PropNested.scalar x).
Proof.
  split; [|split; [discriminate|]].
  - repeat constructor; cbn; meet; lia.
  - intros t i x Ht Hi. apply In_cart in Hi. vm_compute in Hi.
    destruct Ht as [<-|[<-|[<-|[]]]]; repeat (destruct Hi as [<-|Hi]; [vm_compute; intros E; injection E as <-; exact I|]); contradiction.
Qed.
Example C89_cases :
  PropValues.no_int_is_None PropValues.py_eq /\ valid demo_heap a_view /\ positive (shape_of a_view)
  /\ PropValues.stays_eq PropValues.py_eq demo_heap a_view (VInt 0) /\ mapping_ok (zlen (shape_of a_view)) (Some [1; 0]) (Some [1])
  /\ valid demo_heap a_csr /\ is_sparse a_csr /\ same_class a_csr a_csr /\ forward a_csr /\ regular [2; 3] nested_2x3.
Proof.
  meet.
  - now intros [|p|p].
  - exists [0; 0], (VInt 3). meet.
  - exact map_ok.
  - repeat (split || constructor); cbn; discriminate.
Qed.
Example C106_cases :
  shape_of a_view <> [] /\ shape_of a_coo <> [] /\ PropCompare.room CCSR demo_heap a_view (VInt 0)
  /\ PropCompare.room CCSR demo_heap a_coo (VInt 0)
  /\ PropCompare.readable a_coo /\ as_built demo_heap a_coo
  /\ PropCompare.agree demo_heap a_coo a_csr (VInt 0) /\ ~ PropCompare.agree demo_heap a_coo a_view (VInt 0).
Proof.
  meet.
  - split; [reflexivity|]. intros _. exact view_stays.
  - split; [reflexivity|]. intros _. exists [1; 1], (VInt 5). meet.
  - intros _. meet.
  - now apply (built_coo _ _ [(KTup [0; 0], VInt 1); (KTup [0; 2], VInt 3); (KTup [1; 1], VInt 5)]).
  - split; [reflexivity|]. intros i Hi. apply In_cart in Hi. vm_compute in Hi.
    repeat (destruct Hi as [<-|Hi]; [(let agreed := (eexists; split; [vm_compute; reflexivity|]; first [left; split; vm_compute; reflexivity|right; split; [vm_compute; discriminate|reflexivity]]) in eexists; split; agreed)|]). contradiction.
  - intros [E _]. discriminate.
Qed.
Example C104_cases :
  valid demo_heap a_coo /\ PropLoop.floods a_coo /\ positive (shape_of a_coo)
  /\ elements demo_heap a_coo = Ok [(KTup [0; 0], VInt 1); (KTup [0; 2], VInt 3); (KTup [1; 1], VInt 5)]
  /\ valid demo_heap a_dm /\ is_dm a_dm /\ get_elem demo_heap a_dm [0; 0] = Ok (VInt 1)
  /\ ~ In (data_addr a_strided) (index_addrs a_coo).
Proof. meet. vm_compute. intros [H|H]; [discriminate|contradiction]. Qed.
Example C110_as_Buffer_case : valid demo_heap a_csr /\ shape_of a_csr <> [] /\ (forall b, a_csr <> SBuffer b)
  /\ as_storage CBuffer demo_heap a_csr None
     = Ok (SBuffer (Buf 6 0 11 (VInt 0)), demo_heap ++ [map VInt [1; 0; 3; 0; 5; 0]]).
Proof. meet. discriminate. Qed.

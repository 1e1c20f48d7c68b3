(** C122: slices of dense arrays while other threads assign. *)
From Verif Require Import Py SliceTools Basics Storage Spec SliceFacts IndexFacts Repr ReprFacts DMFacts ChainFacts
  PropRead PropLoop Threads ThreadFacts PropThreads PropMoment.
From Coq Require Import List.
Import ListNotations.

(** * Specification *)

(** Strided arrays, and DM arrays over Strided or Buffer data made by fromobject or
    as_DM. *)
Inductive dense_array (h : heap) : storage -> Prop :=
| dense_strided t : valid h (SStrided t) -> positive (sshape t) -> dense_array h (SStrided t)
| dense_dm h0 s : built_dm h0 h s -> dense_based s -> dense_array h s.

(** s[ix1][ix2].. where each slice is taken from the lists as they are at another
    moment. *)
Fixpoint slices_at (H : nat -> heap) (s : storage) (l : list (nat * pyindex)) : res storage :=
  match l with
  | [] => Ok s
  | (n, ix) :: r =>
      match getitem (H n) s ix with
      | Ok (ISto t, _) => slices_at H t r
      | Ok (IVal _, _) => Raise OutOfModel
      | Raise e => Raise e
      end
  end.

(** * Lemmas *)
Definition same_size (h h' : heap) (a : nat) : Prop :=
  exists l l', nth_error h a = Some l /\ nth_error h' a = Some l' /\ length l' = length l.

(** The same outcome, up to the value if it is an element. *)
Definition same_outcome (h h' : heap) (r r' : res (item * heap)) : Prop :=
  match r with
  | Ok (ISto t, h1) => h1 = h /\ r' = Ok (ISto t, h')
  | Ok (IVal _, h1) => h1 = h /\ exists v, r' = Ok (IVal v, h')
  | Raise e => r' = Raise e
  end.

Lemma cell_some h a l : nth_error h a = Some l -> cell h a = Ok l.
Proof. intros E. unfold cell. now rewrite E. Qed.

Lemma pyget_size {A} (l l' : list A) i : length l' = length l ->
  match pyget l i with Ok _ => exists v, pyget l' i = Ok v | Raise e => pyget l' i = Raise e end.
Proof.
  intros E. unfold pyget, zlen. rewrite E. cbv zeta.
  repeat match goal with |- context [if ?b then _ else _] => destruct b end; try reflexivity;
  match goal with |- context [nth_error l ?k] => destruct (nth_error l k) as [x|] eqn:E1, (nth_error l' k) as [y|] eqn:E2 end;
    try reflexivity; try (now eexists); exfalso.
  all: apply nth_error_None in E1 || apply nth_error_None in E2.
  all: match goal with H : nth_error _ _ = Some _ |- _ => apply nth_error_Some_length in H || (assert (X := proj1 (nth_error_Some _ _) ltac:(rewrite H; discriminate))) end; lia.
Qed.

Lemma buf_get_size h h' b i : same_size h h' (baddr b) ->
  match buf_get h b i with Ok _ => exists v, buf_get h' b i = Ok v | Raise e => buf_get h' b i = Raise e end.
Proof.
  intros (l & l' & E1 & E2 & Len). unfold buf_get. rewrite (cell_some _ _ _ E1), (cell_some _ _ _ E2). cbn [bind]. now apply pyget_size.
Qed.

Lemma buf_slice_size h h' b s : same_size h h' (baddr b) -> buf_slice h' b s = buf_slice h b s.
Proof.
  intros (l & l' & E1 & E2 & Len). unfold buf_slice, mk_buffer. rewrite (cell_some _ _ _ E1), (cell_some _ _ _ E2). cbn [bind].
  unfold zlen. now rewrite Len.
Qed.

Lemma getitem_size : forall s h h' ix, dense_based s -> same_size h h' (data_addr s) ->
  same_outcome h h' (getitem h s ix) (getitem h' s ix).
Proof.
  induction s as [b|t|sh ind d|sh fi d|sh cr co d|sh ch a b c d|sh rd rsh rs ro d IH]; intros h h' ix D S; try contradiction; cbn [data_addr] in S.
  - cbn [getitem]. unfold buffer_getitem. destruct (buf_complete_index ix) as [i|e]; cbn [bind same_outcome]; [|reflexivity].
    destruct i as [z|s| |]; cbn [bind same_outcome]; try reflexivity.
    + pose proof (buf_get_size h h' b z S) as G. destruct (buf_get h b z); cbn [bind same_outcome].
      * destruct G as [v ->]. cbn [bind]. eauto.
      * now rewrite G.
    + rewrite (buf_slice_size h h' b s S). destruct (buf_slice h b s); cbn [bind same_outcome]; auto.
    + auto.
  - cbn [getitem]. unfold strided_getitem. destruct (normalize_index ix (sshape t)) as [nix|e]; cbn [bind same_outcome]; [|reflexivity].
    destruct (is_element_index nix (sshape t)).
    + destruct (get_position _ _ _) as [p|e]; cbn [bind same_outcome]; [|reflexivity].
      pose proof (buf_get_size h h' (sdata t) p S) as G. destruct (buf_get h (sdata t) p); cbn [bind same_outcome].
      * destruct G as [v ->]. cbn [bind]. eauto.
      * now rewrite G.
    + destruct (index_strided _ _ _ _) as [[[a b] c]|e]; cbn [bind same_outcome]; [|reflexivity].
      rewrite (buf_slice_size h h' (sdata t) _ S). destruct (buf_slice h _ _); cbn [bind same_outcome]; [|reflexivity].
      destruct (mk_strided _ _ _); cbn [bind same_outcome]; auto.
  - cbn [getitem]. destruct (normalize_index ix sh) as [nix|e]; cbn [bind same_outcome]; [|reflexivity].
    destruct (is_element_index nix sh).
    + destruct (reduce_index _ _ _ _ _) as [r|e]; cbn [bind same_outcome]; [|reflexivity]. now apply IH.
    + destruct (normalize_index _ sh) as [nix'|e]; cbn [bind same_outcome]; [|reflexivity].
      destruct (shape_strided nix' sh) as [g|e]; cbn [bind same_outcome]; [|reflexivity].
      destruct (dm_slice_groups _ _ _ _ _ _) as [[[[ro' rs'] di] rd']|e]; cbn [bind same_outcome]; [|reflexivity].
      assert (G : same_outcome h h' (match di with [] => Ok (ISto d, h) | _ => getitem h d (XTuple di) end)
                                    (match di with [] => Ok (ISto d, h') | _ => getitem h' d (XTuple di) end)).
      { destruct di; [now split|now apply IH]. }
      destruct (match di with [] => Ok (ISto d, h) | _ => _ end) as [[[v|s'] h1]|e]; cbn [bind same_outcome] in *.
      * destruct G as [-> [v' G]]. rewrite G. reflexivity.
      * destruct G as [-> G]. rewrite G. cbn [bind]. destruct (mk_dm _ _ _ _ _); cbn [bind same_outcome]; auto.
      * rewrite G. reflexivity.
Qed.

Lemma dense_no_indices : forall s, dense_based s -> index_addrs s = [].
Proof. induction s; cbn [dense_based index_addrs]; intros D; try contradiction; auto. Qed.

Lemma leaves_nothing {A} (t : prog A) : leaves [] t.
Proof. unfold leaves. induction t as [r|a p k IH|a p v k IH]; cbn [within]; auto. Qed.

Lemma moment_size {A} s sched h (ts : list (prog A)) n : valid h s -> dense_based s ->
  keeps s h (moment sched h ts n) /\ same_size h (moment sched h ts n) (data_addr s).
Proof.
  intros V D. assert (K : keeps s h (moment sched h ts n)).
  { apply moment_keeps. rewrite (dense_no_indices s D). apply Forall_forall. intros t _. apply leaves_nothing. }
  split; [exact K|]. destruct K as [_ K].
  assert (X : exists l, nth_error h (data_addr s) = Some l).
  { clear K. revert V D. induction s as [b|t|sh ind d|sh fi d|sh cr co d|sh ch a b c d|sh rd rsh rs ro d IH]; intros [f R] D; try contradiction; cbn [data_addr].
    - destruct R as (vs & (l & Hl & _) & _). eauto.
    - destruct R as (l & Hl & _). eauto.
    - destruct R as (g & Hg & _). apply IH; [now exists g|exact D]. }
  destruct X as [l Hl]. destruct (K l Hl) as (l' & Hl' & Len). exists l, l'. auto.
Qed.

(** * Theorems *)

(** A slice of an array with dense data depends on no element: whatever other
    threads do, at any moment [s[ix]] is the same view of the same list, no list is
    made, and if it fails it fails at any moment with the same exception. *)
Theorem C122_same_view : forall A sched h (ts : list (prog A)) s ix n,
  valid h s -> dense_based s ->
  (forall t h1, getitem h s ix = Ok (ISto t, h1) -> h1 = h /\ getitem (moment sched h ts n) s ix = Ok (ISto t, moment sched h ts n))
  /\ (forall e, getitem h s ix = Raise e <-> getitem (moment sched h ts n) s ix = Raise e).
Proof.
  intros A sched h ts s ix n V D. destruct (moment_size s sched h ts n V D) as [_ S].
  pose proof (getitem_size s h _ ix D S) as G. split.
  - intros t h1 E. rewrite E in G. exact G.
  - intros e. destruct (getitem h s ix) as [[[v|t] h1]|e']; cbn [same_outcome] in G.
    + destruct G as (_ & w & G). rewrite G. split; discriminate.
    + destruct G as [_ G]. rewrite G. split; discriminate.
    + rewrite G. tauto.
Qed.
Print Assumptions C122_same_view.

(** Such a slice of a Strided array, or of a DM array over dense data, shows at every
    moment the elements the array has at that moment, whenever it was taken. *)
Theorem C122_follows : forall A sched h (ts : list (prog A)) s ix,
  dense_array h s -> ok_index ix (shape_of s) -> slice_shape ix (shape_of s) <> [] ->
  exists t, forall n, let now := moment sched h ts n in
    getitem now s ix = Ok (ISto t, now) /\ slice_elements now s ix now t.
Proof.
  intros A sched h ts s ix Ds Hok Hne.
  assert (P : valid h s /\ dense_based s /\ positive (shape_of s) /\ safe_index s ix).
  { destruct Ds as [t V Hp|h0 s B D].
    - split; [exact V|]. split; [exact I|]. split; [exact Hp|exact I].
    - destruct (built_dm_ok h0 h s B) as (f & Hr & Hz & Hdm & Hp). split; [now exists f|]. split; [exact D|]. split; [exact Hp|].
      exact (safe_zero s h f ix Hr Hz Hp Hok Hne (is_dm_not_buffer s Hdm)). }
  destruct P as (V & D & Hp & Hs). pose proof V as [f Hr].
  destruct (getitem_slice s h f ix Hr Hp Hok Hne Hs) as (t & h' & E & _). exists t. intros n now.
  destruct (C122_same_view A sched h ts s ix n V D) as [G _]. destruct (G _ _ E) as [_ En]. split; [exact En|].
  destruct (moment_size s sched h ts n V D) as [K _]. destruct (valid_keeps s h _ V K) as [f' Hr'].
  destruct (getitem_slice s now f' ix Hr' Hp Hok Hne Hs) as (t' & h'' & E' & E1 & E2 & _ & E3 & _).
  fold now in En. rewrite En in E'. injection E' as <- <-. now apply (slice_elements_repr now s f').
Qed.
Print Assumptions C122_follows.

(** The same for slices of slices of a Strided array, each taken at another moment,
    in any order. *)
Theorem C122_chain : forall A sched h (ts : list (prog A)) t ixs,
  valid h (SStrided t) -> chain_ok ixs (sshape t) ->
  exists t', (forall l, map snd l = ixs -> slices_at (moment sched h ts) (SStrided t) l = Ok (SStrided t'))
    /\ forall n, chain_elements (moment sched h ts n) (SStrided t) ixs (moment sched h ts n) (SStrided t').
Proof.
  intros A sched h ts t ixs V Hok.
  destruct (C26_strided_slices h t ixs V Hok) as (t' & E & _). exists t'.
  assert (G : forall l s, valid h s -> dense_based s -> chain_ok (map snd l) (shape_of s) -> (forall b, s <> SBuffer b) ->
     (exists u, s = SStrided u) -> forall q, getitems h s (map snd l) = Ok (q, h) ->
     slices_at (moment sched h ts) s l = Ok q /\ forall n, getitems (moment sched h ts n) s (map snd l) = Ok (q, moment sched h ts n)).
  { induction l as [|[n ix] l IH]; intros s Vs D C Hb Hu q Eq; cbn [map snd getitems slices_at chain_ok] in *.
    - injection Eq as ->. auto.
    - destruct C as (C1 & C2 & C3 & C4). destruct Vs as [f Hr]. destruct Hu as [u ->].
      destruct (getitem_slice (SStrided u) h f ix Hr C1 C2 C3 I) as (s1 & h1 & G1 & G2 & _ & _ & G3 & G4 & _).
      destruct (G4 I) as (-> & _ & D1). rewrite G1 in Eq. cbn [bind] in Eq.
      assert (K : exists u', s1 = SStrided u').
      { cbn [getitem] in G1. unfold strided_getitem in G1. destruct (normalize_index ix (sshape u)) as [nix|]; [|discriminate]. cbn [bind] in G1.
        destruct (is_element_index nix (sshape u)).
        - destruct (get_position _ _ _); [|discriminate]. cbn [bind] in G1. destruct (buf_get _ _ _); discriminate.
        - destruct (index_strided _ _ _ _) as [[[a b] c]|]; [|discriminate]. cbn [bind] in G1.
          destruct (buf_slice _ _ _); [|discriminate]. cbn [bind] in G1. destruct (mk_strided _ _ _) as [w|]; [|discriminate]. cbn [bind] in G1.
          exists w. congruence. }
      assert (V1 : valid h (SStrided u)) by now exists f.
      destruct (IH s1) with (q := q) as [X1 X2]; auto.
      + eexists. exact G3.
      + now rewrite G2.
      + destruct K as [u' ->]. discriminate.
      + split.
        * destruct (C122_same_view A sched h ts (SStrided u) ix n V1 I) as [W _]. destruct (W _ _ G1) as [_ Wn]. rewrite Wn. exact X1.
        * intros m. destruct (C122_same_view A sched h ts (SStrided u) ix m V1 I) as [W _]. destruct (W _ _ G1) as [_ Wn]. rewrite Wn. cbn [bind]. apply X2. }
  split.
  - intros l <-. apply (G l (SStrided t)); auto; [exact I|discriminate|eauto].
  - intros n. destruct (moment_size (SStrided t) sched h ts n V I) as [K _]. pose proof (valid_keeps _ h _ V K) as Vn.
    destruct (C26_strided_slices (moment sched h ts n) t ixs Vn Hok) as (t2 & E2 & _ & Ch).
    assert (X : map snd (map (fun ix => (n, ix)) ixs) = ixs) by (rewrite map_map; apply map_id).
    destruct (G (map (fun ix => (n, ix)) ixs) (SStrided t)) with (q := SStrided t') as [_ Y]; auto; rewrite ?X; auto; [exact I|discriminate|eauto|].
    rewrite X in Y. rewrite (Y n) in E2. injection E2 as <-. exact Ch.
Qed.
Print Assumptions C122_chain.

(** One thread assigns 7 to all elements of [1, 2, 3, 4]; the others hold a[::-1],
    taken before, and a[1:][::2], the second slice taken after two elements were
    assigned. *)
Example C122_case :
  let a := SStrided whole in
  let back := XItem (ISlice (Sl None None (Some (-1)))) in
  let rest := XItem (ISlice (Sl (Some 1) None None)) in
  let even := XItem (ISlice (Sl None None (Some 2))) in
  let now := moment [0; 0; 0; 0]%nat one_list [thread (fill 7)] in
  dense_array one_list a /\ ok_index back [4] /\ slice_shape back [4] = [4] /\ chain_ok [rest; even] [4]
  /\ exists t t', getitem one_list a back = Ok (ISto t, one_list) /\ slices_at now a [(0%nat, rest); (2%nat, even)] = Ok t'
       /\ map (fun n => map (fun j => get_elem (now n) t [j]) [0; 1; 2; 3]) [0; 2; 4]%nat
          = [[Ok (VInt 4); Ok (VInt 3); Ok (VInt 2); Ok (VInt 1)]; [Ok (VInt 4); Ok (VInt 3); Ok (VInt 7); Ok (VInt 7)];
             [Ok (VInt 7); Ok (VInt 7); Ok (VInt 7); Ok (VInt 7)]]
       /\ map (fun n => map (fun j => get_elem (now n) t' [j]) [0; 1]) [0; 2; 4]%nat
          = [[Ok (VInt 2); Ok (VInt 4)]; [Ok (VInt 7); Ok (VInt 4)]; [Ok (VInt 7); Ok (VInt 7)]].
Proof.
  cbv zeta. assert (V : valid one_list (SStrided whole)) by (apply (one_axis whole 4); cbn; reflexivity || lia).
  split; [constructor; [exact V|repeat constructor]|].
  split; [split; [repeat constructor; cbn; discriminate|right; cbn; lia]|]. split; [reflexivity|].
  split.
  { split; [repeat constructor|]. split; [split; [repeat constructor; cbn; discriminate|right; cbn; lia]|]. split; [discriminate|].
    split; [repeat constructor|]. split; [split; [repeat constructor; cbn; discriminate|right; cbn; lia]|]. split; [discriminate|exact I]. }
  do 2 eexists. split; [vm_compute; reflexivity|]. split; [vm_compute; reflexivity|]. split; vm_compute; reflexivity.
Qed.

(** The DM array [[1, 2], [3, 4]] over Strided data, its column [:, 1], and a thread
    that assigns 9 through the list. *)
Example C122_dm_case :
  let v := VSeq [VSeq [VInt 1; VInt 2]; VSeq [VInt 3; VInt 4]] in
  let column := XTuple [ISlice (Sl None None None); IInt 1] in
  exists d h t, dm_fromobject [] (SrcSeq v) (fo_unspecified None) None None CStrided = Ok (d, h)
    /\ dense_array h d /\ ok_index column (shape_of d) /\ slice_shape column (shape_of d) = [2]
    /\ getitem h d column = Ok (ISto t, h)
    /\ let now := moment [0]%nat h [Put 0 3 (VInt 9) (Ret (Ok tt))] in
       get_elem (now 0%nat) t [1] = Ok (VInt 4) /\ get_elem (now 1%nat) t [1] = Ok (VInt 9) /\ get_elem (now 1%nat) t [0] = Ok (VInt 2).
Proof.
  cbv zeta. set (v := VSeq [VSeq [VInt 1; VInt 2]; VSeq [VInt 3; VInt 4]]).
  destruct (dm_fromobject [] (SrcSeq v) (fo_unspecified None) None None CStrided) as [[d h]|] eqn:E;
    [|vm_compute in E; discriminate].
  assert (B : built_dm [] h d).
  { eapply (built_seq [] v [2; 2] None None None CStrided); try exact E; try discriminate.
    + repeat (split || constructor); cbn; discriminate.
    + repeat constructor; lia.
    + constructor; [unfold zlen; cbn; lia|discriminate|discriminate].
    + exact I. }
  vm_compute in E. injection E as <- <-. do 3 eexists. split; [reflexivity|].
  split; [eapply dense_dm; [exact B|exact I]|]. split; [split; [repeat constructor; cbn; discriminate|right; cbn; lia]|].
  split; [reflexivity|]. split; [vm_compute; reflexivity|]. vm_compute. auto.
Qed.

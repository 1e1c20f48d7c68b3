(** C19: the binary searches of COO, FlatCOO and CSR. *)
From Coq Require Import Sorting.Sorted ZifyBool.
From Verif Require Import Py SliceTools Basics Storage Spec SliceFacts IndexFacts
  CompressFacts ReduceFacts SolverFacts SolveFacts Repr ReprFacts.

Lemma bsearch_monotone (d : Z -> res Z) (c : Z -> Z) left right x :
  (forall p, left <= p <= right -> d p = Ok (c p - x)) ->
  (forall p q, left <= p -> p < q -> q <= right -> c p < c q) ->
  exists o, bsearch (search_fuel left right) left right d = Ok o
    /\ forall p, o = Some p <-> left <= p <= right /\ c p = x.
Proof.
  intros Hd Hc. destruct (bsearch_spec d (fun p => c p - x) (search_fuel left right) left right) as (r & E & Hr).
  - exact Hd.
  - intros p q Hp Hpq Hq Hle. specialize (Hc p q Hp Hpq Hq). lia.
  - intros p q Hp Hpq Hq Hle. specialize (Hc p q Hp Hpq Hq). lia.
  - apply search_fuel_ok.
  - exists r. split; [exact E|]. intros p. rewrite Hr. split; intros [H1 H2]; (split; [exact H1|lia]).
Qed.

(** FlatCOO: [c p] is the p-th stored flat index. *)
Theorem C19_flatcoo : forall h (f : buffer) (c : Z -> Z) findex,
  (forall p, 0 <= p < bsize f -> buf_get h f p = Ok (VInt (c p))) ->
  (forall p q, 0 <= p < q -> q < bsize f -> c p < c q) ->
  exists o, get_flatcoo_position h findex f = Ok o
    /\ forall p, o = Some p <-> 0 <= p < bsize f /\ c p = findex.
Proof.
  intros h f c findex Hg Hc. unfold get_flatcoo_position.
  destruct (bsearch_monotone (fun pos => v <- buf_int h f pos ;; Ok (v - findex)) c 0 (bsize f - 1) findex)
    as (o & E & Ho).
  - intros p Hp. unfold buf_int. rewrite Hg by lia. reflexivity.
  - intros p q Hp Hpq Hq. apply Hc; lia.
  - exists o. split; [exact E|]. intros p. rewrite Ho. split; intros [H1 H2]; (split; [lia|exact H2]).
Qed.

(** CSR: the columns of row [r] are stored at positions a, ..., b-1. *)
Theorem C19_csr : forall h (crow col : buffer) (c : Z -> Z) r x a b,
  buf_get h crow r = Ok (VInt a) -> buf_get h crow (r + 1) = Ok (VInt b) ->
  (forall p, a <= p < b -> buf_get h col p = Ok (VInt (c p))) ->
  (forall p q, a <= p < q -> q < b -> c p < c q) ->
  exists o, get_csr_position h [r; x] crow col = Ok o
    /\ forall p, o = Some p <-> a <= p < b /\ c p = x.
Proof.
  intros h crow col c r x a b Ha Hb Hg Hc. unfold get_csr_position, buf_int at 1 2. rewrite Ha, Hb. cbn [bind as_int].
  destruct (bsearch_monotone (fun pos => v <- buf_int h col pos ;; Ok (v - x)) c a (b - 1) x)
    as (o & E & Ho).
  - intros p Hp. unfold buf_int. rewrite Hg by lia. reflexivity.
  - intros p q Hp Hpq Hq. apply Hc; lia.
  - exists o. split; [exact E|]. intros p. rewrite Ho. split; intros [H1 H2]; (split; [lia|exact H2]).
Qed.

(** COO: [c p] is the p-th stored index; [indices[j, p]] is its j-th item. *)
Theorem C19_coo : forall h (ind : strided) shape n (c : Z -> list Z) index,
  sshape ind = [zlen shape; n] ->
  (forall p, 0 <= p < n -> zlen (c p) = zlen shape) ->
  (forall j p, 0 <= j < zlen shape -> 0 <= p < n ->
     strided_getitem h ind (int_tuple [j; p]) = Ok (IVal (VInt (nth (Z.to_nat j) (c p) 0)))) ->
  (forall p q, 0 <= p < q -> q < n -> row_major_lt (c p) (c q)) ->
  zlen index = zlen shape ->
  exists o, get_coo_position h index shape ind = Ok o
    /\ forall p, o = Some p <-> 0 <= p < n /\ c p = index.
Proof.
  intros h ind shape n c index Hsh Hlen Hg Hc Hl. unfold get_coo_position. rewrite Hsh.
  change (pyget [zlen shape; n] 1) with (@Ok Z n). cbn [bind].
  assert (Hd : forall p, 0 <= p <= n - 1 ->
    coo_diff h ind p (zseq (zlen shape)) index = Ok (lexdiff (c p) index)).
  { intros p Hp. pose proof (Hlen p ltac:(lia)) as Hx.
    unfold zseq, zlen. rewrite Nat2Z.id.
    assert (G : forall m s, (s + m = length shape)%nat ->
      coo_diff h ind p (map Z.of_nat (seq s m)) index = Ok (lexdiff (skipn s (c p)) (skipn s index))).
    { unfold zlen in *. induction m as [|m IH]; intros s Hsn; cbn [seq map coo_diff].
      - rewrite !skipn_all2 by lia. reflexivity.
      - unfold strided_int. rewrite Hg by (unfold zlen; lia). cbn [bind item_val as_int].
        rewrite Nat2Z.id. rewrite (pyget_ok index (Z.of_nat s) 0) by (unfold zlen; lia). cbn [bind]. rewrite Nat2Z.id.
        rewrite (skipn_nth_cons (c p) s) by lia. rewrite (skipn_nth_cons index s) by lia. cbn [lexdiff].
        destruct (nth s (c p) 0 - nth s index 0 =? 0); [|reflexivity]. apply IH. lia. }
    exact (G (length shape) 0%nat eq_refl). }
  assert (S : forall p, 0 <= p <= n - 1 ->
    (lexdiff (c p) index < 0 <-> row_major_lt (c p) index) /\ (lexdiff (c p) index = 0 <-> c p = index)).
  { intros p Hp. apply lexdiff_spec. specialize (Hlen p ltac:(lia)). unfold zlen in *. lia. }
  destruct (bsearch_spec (fun pos => coo_diff h ind pos (zseq (zlen shape)) index)
              (fun p => lexdiff (c p) index) (search_fuel 0 (n - 1)) 0 (n - 1)) as (o & E & Ho).
  - exact Hd.
  - intros p q Hp Hpq Hq Hle. destruct (S p ltac:(lia)) as [S1 S2], (S q ltac:(lia)) as [T1 T2].
    apply S1. pose proof (Hc p q ltac:(lia) ltac:(lia)) as R.
    assert (lexdiff (c q) index < 0 \/ lexdiff (c q) index = 0) as [H|H] by lia.
    + eapply row_major_lt_trans; [exact R|]. now apply T1.
    + apply T2 in H. now rewrite <- H.
  - intros p q Hp Hpq Hq Hle. destruct (S p ltac:(lia)) as [S1 S2], (S q ltac:(lia)) as [T1 T2].
    pose proof (Hc p q ltac:(lia) ltac:(lia)) as R.
    destruct (Z.lt_trichotomy (lexdiff (c q) index) 0) as [H|[H|H]]; [| |lia]; exfalso.
    + apply T1 in H. pose proof (row_major_lt_trans _ _ _ R H) as R2. apply S1 in R2. lia.
    + apply T2 in H. rewrite H in R. apply S1 in R. lia.
  - apply search_fuel_ok.
  - exists o. split; [exact E|]. intros p. rewrite Ho.
    split; intros [H1 H2]; (split; [lia|]); apply (S p ltac:(lia)); exact H2.
Qed.

(** Three stored indices of a 5 x 6 array. *)
Example C19_coo_case :
  let h := [map VInt [0; 0; 3; 1; 4; 0]] in
  let ind := Str [2; 3] [3; 1] (Buf 6 0 0 VNone) in
  let c := fun p => nth (Z.to_nat p) [[0; 1]; [0; 4]; [3; 0]] [] in
  (forall j p, 0 <= j < 2 -> 0 <= p < 3 ->
     strided_getitem h ind (int_tuple [j; p]) = Ok (IVal (VInt (nth (Z.to_nat j) (c p) 0))))
  /\ (forall p q, 0 <= p < q -> q < 3 -> row_major_lt (c p) (c q))
  /\ get_coo_position h [3; 0] [5; 6] ind = Ok (Some 2)
  /\ get_coo_position h [3; 1] [5; 6] ind = Ok None.
Proof.
  cbv zeta. split; [|split; [|split; reflexivity]].
  - intros j p Hj Hp. assert (j = 0 \/ j = 1) as [->| ->] by lia;
      assert (p = 0 \/ p = 1 \/ p = 2) as [->|[->| ->]] by lia; reflexivity.
  - intros p q Hp Hq. assert (p = 0 /\ q = 1 \/ p = 0 /\ q = 2 \/ p = 1 /\ q = 2) as [[-> ->]|[[-> ->]|[-> ->]]] by lia; cbn.
    + apply rml_tail, rml_head; [lia|reflexivity].
    + apply rml_head; [lia|reflexivity].
    + apply rml_head; [lia|reflexivity].
Qed.
Example C19_flatcoo_case :
  let h := [map VInt [2; 3; 17]] in let f := Buf 3 0 0 VNone in
  (forall p, 0 <= p < 3 -> buf_get h f p = Ok (VInt (nth (Z.to_nat p) [2; 3; 17] 0)))
  /\ get_flatcoo_position h 17 f = Ok (Some 2) /\ get_flatcoo_position h 4 f = Ok None.
Proof.
  cbv zeta. split; [|split; reflexivity].
  intros p Hp. assert (p = 0 \/ p = 1 \/ p = 2) as [->|[->| ->]] by lia; reflexivity.
Qed.
Example C19_csr_case :
  let h := [map VInt [0; 2; 2; 3]; map VInt [1; 4; 0]] in
  let crow := Buf 4 0 0 VNone in let col := Buf 3 0 1 VNone in
  get_csr_position h [0; 4] crow col = Ok (Some 1)
  /\ get_csr_position h [1; 4] crow col = Ok None /\ get_csr_position h [2; 0] crow col = Ok (Some 2).
Proof. repeat split. Qed.

Print Assumptions C19_flatcoo.
Print Assumptions C19_csr.
Print Assumptions C19_coo.

(** C72: what the constructors of the storage classes check. *)
From Coq Require Import Permutation ZifyBool.
From Verif Require Import Py SliceTools Basics Storage Spec SliceFacts IndexFacts
  CompressFacts ReduceFacts SolverFacts SolveFacts Repr ReprFacts ViewFacts BuildFacts SparseFacts
  ConvFacts FromFacts DMFacts ReadFacts MapFacts ChainFacts PropRead PropFormat.

(** C2SR.__init__: storage.py:900-917. *)
Definition mk_c2sr (shape : list Z) (channels : Z) (row_lengths row_pointers col data : buffer) : res storage :=
  _ <- assert_ (zlen shape =? 2) ;;
  _ <- assert_ (bsize row_lengths =? bsize row_pointers) ;;
  n <- pyget shape 0 ;;
  _ <- assert_ (n =? bsize row_lengths) ;;
  Ok (SC2SR shape channels row_lengths row_pointers col data).

(** The constructor call that [s] stands for: class and arguments.  rshapes of DM
    is not an argument.  Arguments of other types (lists for tuples, lists for
    Buffers) are rejected by assertions and are not modelled. *)
Definition construct (h : heap) (s : storage) : res storage :=
  match s with
  | SBuffer b => b' <- mk_buffer h (bsize b) (boff b) (baddr b) (bunspec b) ;; Ok (SBuffer b')
  | SStrided t => t' <- mk_strided (sshape t) (sstrides t) (sdata t) ;; Ok (SStrided t')
  | SCOO sh ind d => mk_coo sh ind d
  | SFlatCOO sh f d => mk_flatcoo sh f d
  | SCSR sh crow col d => mk_csr sh crow col d
  | SC2SR sh ch rl rp col d => mk_c2sr sh ch rl rp col d
  | SDM sh rd _ rs ro d => mk_dm sh rd rs ro d
  end.

(** * Specification: sizes that fit together. *)
Definition sizes_agree (h : heap) (s : storage) : Prop :=
  match s with
  | SBuffer b => forall l, nth_error h (baddr b) = Some l -> boff b + bsize b <= zlen l
  | SStrided t => length (sshape t) = length (sstrides t)
  | SCOO _ ind d => nth_error (sshape ind) 1 = Some (bsize d)
  | SFlatCOO _ f d => bsize f = bsize d
  | SCSR sh crow col d => exists nrows ncols, sh = [nrows; ncols] /\ bsize crow = nrows + 1 /\ bsize col = bsize d
  | SC2SR sh _ rl rp _ _ => exists nrows ncols, sh = [nrows; ncols] /\ bsize rl = nrows /\ bsize rp = nrows
  | SDM sh rd _ _ _ _ => rd <> [] /\ forall a, In a (concat rd) <-> 0 <= a < zlen sh
  end.

(** The object has the arguments as attributes. *)
Definition has_arguments (s s' : storage) : Prop :=
  match s, s' with
  | SDM sh rd _ rs ro d, SDM sh' rd' rsh' rs' ro' d' =>
      sh' = sh /\ rd' = rd /\ rs' = rs /\ ro' = ro /\ d' = d /\ rsh' = map (gather sh) rd
  | _, _ => s' = s
  end.

(** The exception for arguments that do not fit. *)
Definition rejection (s : storage) : exn :=
  match s with
  | SCOO _ ind _ => if (length (sshape ind) <? 2)%nat then IndexError else AssertionError
  | SDM _ [] _ _ _ _ => TypeError
  | _ => AssertionError
  end.

(** The list given to Buffer exists. *)
Definition allocated (h : heap) (s : storage) : Prop :=
  match s with SBuffer b => nth_error h (baddr b) <> None | _ => True end.

(** * Facts *)
Lemma assert_true b : b = true -> assert_ b = Ok tt.
Proof. now intros ->. Qed.

Lemma assert_false b : b = false -> assert_ b = Raise AssertionError.
Proof. now intros ->. Qed.

Lemma mk_dm_exact sh rd rs ro d : rd <> [] ->
  ((forall a, In a (concat rd) <-> 0 <= a < zlen sh) ->
     mk_dm sh rd rs ro d = Ok (SDM sh rd (map (gather sh) rd) rs ro d))
  /\ (~ (forall a, In a (concat rd) <-> 0 <= a < zlen sh) ->
     mk_dm sh rd rs ro d = Raise AssertionError).
Proof.
  intros Hne. destruct rd as [|g gs]; [congruence|]. unfold mk_dm.
  remember (g :: gs) as rd eqn:Erd. clear Hne.
  destruct (forallb (fun x => zmem x (zseq (zlen sh))) (concat rd)
            && forallb (fun x => zmem x (concat rd)) (zseq (zlen sh))) eqn:E.
  - rewrite andb_true_iff, !forallb_forall in E. destruct E as [E1 E2].
    assert (Hin : forall a, In a (concat rd) <-> 0 <= a < zlen sh).
    { intros a. rewrite <- In_zseq. split; intros H; apply zmem_In; auto. }
    split; [|tauto]. intros _. cbn [assert_ bind].
    rewrite make_reduction_ok; [reflexivity|].
    apply Forall_forall. intros a Ha. now apply Hin.
  - split; [|reflexivity]. intros Hin. exfalso.
    apply andb_false_iff in E. destruct E as [E|E];
      apply (f_equal negb) in E; rewrite <- Bool.not_true_iff_false in E || idtac.
    + assert (T : forallb (fun x => zmem x (zseq (zlen sh))) (concat rd) = true).
      { apply forallb_forall. intros x Hx. apply zmem_In, In_zseq, Hin, Hx. }
      rewrite T in E. discriminate.
    + assert (T : forallb (fun x => zmem x (concat rd)) (zseq (zlen sh)) = true).
      { apply forallb_forall. intros x Hx. apply zmem_In, Hin, In_zseq, Hx. }
      rewrite T in E. discriminate.
Qed.

Lemma two_of_zlen (l : list Z) : (zlen l =? 2) = true -> exists a b, l = [a; b].
Proof.
  destruct l as [|a [|b [|c l]]]; cbn [zlen length]; unfold zlen; cbn [length]; intros H; try (exfalso; lia).
  now exists a, b.
Qed.

(** * Every constructor accepts exactly the arguments whose sizes fit together. *)
Theorem C72_accepts : forall h s, allocated h s -> sizes_agree h s ->
  exists s', construct h s = Ok s' /\ has_arguments s s'.
Proof.
  intros h [b|t|sh ind d|sh f d|sh crow col d|sh ch rl rp col d|sh rd rsh rs ro d] Ha H;
    cbn [allocated sizes_agree construct has_arguments] in *.
  - unfold mk_buffer, cell. destruct (nth_error h (baddr b)) as [l|] eqn:E; [|congruence].
    specialize (H l eq_refl). cbn [bind]. rewrite assert_true by lia. cbn [bind].
    eexists; split; [reflexivity|]. now destruct b.
  - unfold mk_strided. rewrite assert_true by (unfold zlen; lia). cbn [bind].
    eexists; split; [reflexivity|]. now destruct t.
  - unfold mk_coo. destruct (sshape ind) as [|r [|n sh']]; cbn in H; try discriminate. injection H as ->.
    rewrite (pyget_ok _ _ 0) by (unfold zlen; cbn [length]; lia). cbn [bind]. change (nth (Z.to_nat 1) (r :: bsize d :: sh') 0) with (bsize d).
    rewrite assert_true by lia. eexists; split; reflexivity.
  - unfold mk_flatcoo. rewrite assert_true by lia. eexists; split; reflexivity.
  - destruct H as (n & m & -> & H1 & H2). unfold mk_csr. rewrite assert_true by reflexivity. cbn [bind].
    rewrite (pyget_ok _ _ 0) by (unfold zlen; cbn [length]; lia). cbn [bind].
    change (nth (Z.to_nat 0) [n; m] 0) with n.
    rewrite assert_true by lia. cbn [bind]. rewrite assert_true by lia. eexists; split; reflexivity.
  - destruct H as (n & m & -> & H1 & H2). unfold mk_c2sr. rewrite assert_true by reflexivity. cbn [bind].
    rewrite assert_true by lia. cbn [bind].
    rewrite (pyget_ok _ _ 0) by (unfold zlen; cbn [length]; lia). cbn [bind].
    change (nth (Z.to_nat 0) [n; m] 0) with n.
    rewrite assert_true by lia. eexists; split; reflexivity.
  - destruct H as [Hne H]. rewrite (proj1 (mk_dm_exact sh rd rs ro d Hne) H).
    eexists; split; [reflexivity|]. repeat split.
Qed.
Print Assumptions C72_accepts.

Theorem C72_rejects : forall h s, allocated h s -> ~ sizes_agree h s ->
  construct h s = Raise (rejection s).
Proof.
  intros h [b|t|sh ind d|sh f d|sh crow col d|sh ch rl rp col d|sh rd rsh rs ro d] Ha H;
    cbn [allocated sizes_agree construct rejection] in *.
  - unfold mk_buffer, cell. destruct (nth_error h (baddr b)) as [l|] eqn:E; [|congruence]. cbn [bind].
    rewrite assert_false; [reflexivity|].
    destruct (Z.leb_spec (boff b + bsize b) (zlen l)); [|reflexivity].
    exfalso. apply H. intros l' El. now injection El as <-.
  - unfold mk_strided. rewrite assert_false by (unfold zlen; lia). reflexivity.
  - unfold mk_coo. destruct (sshape ind) as [|r [|n sh']]; cbn [length]; try reflexivity.
    rewrite (pyget_ok _ _ 0) by (unfold zlen; cbn [length]; lia). cbn [bind].
    change (nth (Z.to_nat 1) (r :: n :: sh') 0) with n.
    rewrite assert_false; [reflexivity|]. cbn in H.
    destruct (Z.eqb_spec n (bsize d)); [|reflexivity]. congruence.
  - unfold mk_flatcoo. rewrite assert_false by lia. reflexivity.
  - unfold mk_csr. destruct (zlen sh =? 2) eqn:E; [|reflexivity].
    destruct (two_of_zlen _ E) as (n & m & ->). cbn [assert_ bind].
    rewrite (pyget_ok _ _ 0) by (unfold zlen; cbn [length]; lia). cbn [bind].
    change (nth (Z.to_nat 0) [n; m] 0) with n.
    destruct (Z.eqb_spec (bsize crow) (n + 1)); [|reflexivity]. cbn [assert_ bind].
    destruct (Z.eqb_spec (bsize col) (bsize d)); [|reflexivity].
    exfalso. apply H. now exists n, m.
  - unfold mk_c2sr. destruct (zlen sh =? 2) eqn:E; [|reflexivity].
    destruct (two_of_zlen _ E) as (n & m & ->). cbn [assert_ bind].
    destruct (Z.eqb_spec (bsize rl) (bsize rp)); [|reflexivity]. cbn [assert_ bind].
    rewrite (pyget_ok _ _ 0) by (unfold zlen; cbn [length]; lia). cbn [bind].
    change (nth (Z.to_nat 0) [n; m] 0) with n.
    destruct (Z.eqb_spec n (bsize rl)); [|reflexivity].
    exfalso. apply H. exists n, m. repeat split; lia.
  - destruct rd as [|g gs]; [reflexivity|].
    rewrite (proj2 (mk_dm_exact sh (g :: gs) rs ro d ltac:(discriminate))); [reflexivity|].
    intros Hc. apply H. split; [discriminate|exact Hc].
Qed.
Print Assumptions C72_rejects.

(** Whatever a constructor accepts has sizes that fit together. *)
Theorem C72_only : forall h s s', allocated h s -> construct h s = Ok s' ->
  sizes_agree h s /\ has_arguments s s'.
Proof.
  intros h s s' Ha E.
  assert (D : sizes_agree h s \/ ~ sizes_agree h s).
  { destruct s as [b|t|sh ind d|sh f d|sh crow col d|sh ch rl rp col d|sh rd rsh rs ro d]; cbn [sizes_agree].
    - cbn in Ha. destruct (nth_error h (baddr b)) as [l|]; [|congruence].
      destruct (Z_le_dec (boff b + bsize b) (zlen l)) as [L|L].
      + left. intros l' El. now injection El as <-.
      + right. intros Hc. apply L. now apply Hc.
    - lia.
    - destruct (nth_error (sshape ind) 1) as [n|]; [|right; discriminate].
      destruct (Z.eq_dec n (bsize d)); [left|right]; congruence.
    - lia.
    - destruct (zlen sh =? 2) eqn:E2.
      + destruct (two_of_zlen _ E2) as (n & m & ->).
        destruct (Z.eq_dec (bsize crow) (n + 1)); [destruct (Z.eq_dec (bsize col) (bsize d))|].
        * left. now exists n, m.
        * right. intros (n' & m' & Q & _ & ?). tauto.
        * right. intros (n' & m' & Q & ? & _). injection Q as <- <-. tauto.
      + right. intros (n & m & -> & _). discriminate E2.
    - destruct (zlen sh =? 2) eqn:E2.
      + destruct (two_of_zlen _ E2) as (n & m & ->).
        destruct (Z.eq_dec (bsize rl) n); [destruct (Z.eq_dec (bsize rp) n)|].
        * left. now exists n, m.
        * right. intros (n' & m' & Q & _ & ?). injection Q as <- <-. tauto.
        * right. intros (n' & m' & Q & ? & _). injection Q as <- <-. tauto.
      + right. intros (n & m & -> & _). discriminate E2.
    - destruct rd as [|g gs]; [right; intros [Hc _]; now apply Hc|].
      left. split; [discriminate|]. cbn [construct] in E.
      assert (N : ~ ~ forall a, In a (concat (g :: gs)) <-> 0 <= a < zlen sh).
      { intros Hn. rewrite (proj2 (mk_dm_exact sh (g :: gs) rs ro d ltac:(discriminate)) Hn) in E. discriminate. }
      intros a. split; intros Hin.
      + destruct (Z_le_dec 0 a); [destruct (Z_lt_dec a (zlen sh)); [lia|]|]; exfalso; apply N; intros Hc;
          apply Hc in Hin; lia.
      + destruct (in_dec Z.eq_dec a (concat (g :: gs))) as [Hi|Hi]; [exact Hi|].
        exfalso. apply N. intros Hc. now apply Hi, Hc. }
  destruct D as [D|D].
  - split; [exact D|]. destruct (C72_accepts h s Ha D) as (s2 & E2 & H2). congruence.
  - rewrite (C72_rejects h s Ha D) in E. discriminate.
Qed.
Print Assumptions C72_only.

(** * The contents of the arguments are not checked. *)

(** FlatCOO((4,), [2, 0], [20, 10]): the sizes fit and the positions are in range
    and distinct, but not increasing.  The value 10 is stored for position 0, and
    s[0] does not find it.  Strided((3,), (1,), [1]): the shape does not fit in the
    buffer, and s[2] raises IndexError although 2 is in range. *)
Theorem C72_contents_refuted : exists h s t,
  s = SFlatCOO [4] (Buf 2 0 0%nat VNone) (Buf 2 0 1%nat VNone)
  /\ h = [map VInt [2; 0]; map VInt [20; 10]; [VInt 1]]
  /\ construct h s = Ok s /\ getitem h s (XItem (IInt 0)) = Ok (IVal VNone, h)
  /\ t = SStrided (Str [3] [1] (Buf 1 0 2%nat VNone))
  /\ construct h t = Ok t /\ getitem h t (XItem (IInt 2)) = Raise IndexError.
Proof.
  eexists; eexists; eexists. do 2 (split; [reflexivity|]). split; [reflexivity|].
  split; [vm_compute; reflexivity|]. split; [reflexivity|]. split; [reflexivity|]. vm_compute. reflexivity.
Qed.
Print Assumptions C72_contents_refuted.

(** Repeated axes are accepted by DM, missing ones are not. *)
Example C72_case :
  let h := [map VInt [0; 1; 2]; map VInt [7; 8]; map VInt [1]] in
  let b n a := Buf n 0 a VNone in
  sizes_agree h (SCSR [2; 5] (b 3 0%nat) (b 2 1%nat) (b 2 1%nat))
  /\ ~ sizes_agree h (SCSR [3; 5] (b 3 0%nat) (b 2 1%nat) (b 2 1%nat))
  /\ construct h (SCSR [2; 5; 1] (b 3 0%nat) (b 2 1%nat) (b 2 1%nat)) = Raise AssertionError
  /\ construct h (SCOO [3] (Str [2] [1] (b 2 1%nat)) (b 2 1%nat)) = Raise IndexError
  /\ construct h (SDM [2; 3] [[0]; [0; 1]] [] [] [] (SBuffer (b 2 1%nat)))
     = Ok (SDM [2; 3] [[0]; [0; 1]] [[2]; [2; 3]] [] [] (SBuffer (b 2 1%nat)))
  /\ construct h (SDM [2; 3] [[0]; [0]] [] [] [] (SBuffer (b 2 1%nat))) = Raise AssertionError
  /\ construct h (SDM [2; 3] [] [] [] [] (SBuffer (b 2 1%nat))) = Raise TypeError
  /\ construct h (SC2SR [3; 5] 1 (b 3 0%nat) (b 2 1%nat) (b 1 2%nat) (b 1 2%nat)) = Raise AssertionError
  /\ construct h (SBuffer (Buf 2 2 0%nat VNone)) = Raise AssertionError
  /\ construct h (SBuffer (Buf 2 1 0%nat VNone)) = Ok (SBuffer (Buf 2 1 0%nat VNone)).
Proof.
  cbv zeta. split; [now exists 2, 5|]. split.
  - intros (n & m & E & H & _). injection E as <- <-. discriminate H.
  - repeat split; vm_compute; reflexivity.
Qed.

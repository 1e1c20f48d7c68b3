(** C49, C50: programs.  A program is any list of constructor calls,
    conversions, slices, copies and assignments on variables; each operation
    that returns an array binds a new variable, each that raises is caught and
    the program goes on. *)
From Coq Require Import Sorting.Sorted Permutation.
From Verif Require Import Py SliceTools Basics Storage Spec SliceFacts IndexFacts
  CompressFacts ReduceFacts SolverFacts SolveFacts Repr ReprFacts ViewFacts BuildFacts SparseFacts
  ConvFacts FromFacts DMFacts ReadFacts MapFacts ChainFacts WriteFacts EffectFacts PureFacts AliasFacts
  PropRead PropWrite PropIndex.

(** [origin]: arrays with the same number share their elements (a view and its
    base).  [sliced]: obtained by slicing. *)
Record var := Var { vsto : storage; origin : nat; sliced : bool }.
Record state := St { sheap : heap; vars : list var }.

Inductive operand := OList (v : pyval) | OVar (k : nat).

Inductive op :=
| New (c : cls) (v : pyval) (u : option pyval)                    (* C.fromobject(v, unspecified=u) *)
| NewDM (v : pyval) (u : option pyval) (dimensions partitioning : option (list Z)) (c : cls)
                                                                  (* DM.fromobject(v, ...) *)
| As (k : nat) (c : cls) (u : option pyval)                       (* x.as_C(unspecified=u) *)
| AsDM (k : nat) (dimensions partitioning : option (list Z)) (c : cls) (u : option pyval)
                                                                  (* x.as_DM(...) *)
| Slice (k : nat) (ix : pyindex)                                  (* x[ix] *)
| Copy (k : nat) (u : option pyval)                               (* x.copy(unspecified=u) *)
| Assign (k : nat) (ix : pyindex) (value : operand).              (* x[ix] = value *)

(** Slices of these arrays are views: Buffer, Strided, and DM over them. *)
Fixpoint is_view_class (s : storage) : bool :=
  match s with
  | SBuffer _ | SStrided _ => true
  | SDM _ _ _ _ _ d => is_view_class d
  | _ => false
  end.
(** The variable bound by an operation that returned [r]. *)
Definition bind_var (st : state) (r : res (storage * heap)) (o : nat) (sl : bool) : state * res unit :=
  match r with
  | Ok (s, h) => (St h (vars st ++ [Var s o sl]), Ok tt)
  | Raise e => (st, Raise e)
  end.
Definition with_var (st : state) (k : nat) (f : var -> state * res unit) : state * res unit :=
  match nth_error (vars st) k with Some x => f x | None => (st, Raise OutOfModel) end.

Definition step (st : state) (o : op) : state * res unit :=
  let h := sheap st in
  let new := length (vars st) in
  match o with
  | New c v u => bind_var st (fromobject c h (SrcSeq v) (fo_unspecified u)) new false
  | NewDM v u d p c => bind_var st (dm_fromobject h (SrcSeq v) (fo_unspecified u) d p c) new false
  | As k c u => with_var st k (fun x =>
      (* x.as_C() is x itself when x is a Buffer, Strided, COO or FlatCOO and C its class *)
      let same := is_same_class c (vsto x) && match u with None => true | _ => false end in
      bind_var st (as_storage c h (vsto x) u) (if same then origin x else new) (if same then sliced x else false))
  | AsDM k d p c u => with_var st k (fun x => bind_var st (as_DM h (vsto x) d p c u) new false)
  | Slice k ix => with_var st k (fun x =>
      match getitem h (vsto x) ix with
      | Ok (ISto s, h') => bind_var st (Ok (s, h')) (if is_view_class (vsto x) then origin x else new) true
      | Ok (IVal _, _) => (st, Ok tt)
      | Raise e => (st, Raise e)
      end)
  | Copy k u => with_var st k (fun x => bind_var st (copy h (vsto x) u) new (sliced x))
  | Assign k ix value => with_var st k (fun x =>
      match value with
      | OList v => let '(h', r) := setitem h (vsto x) ix (SrcSeq v) in (St h' (vars st), r)
      | OVar j => with_var st j (fun y =>
          let '(h', r) := setitem h (vsto x) ix (SrcSto (vsto y)) in (St h' (vars st), r))
      end)
  end.

Definition run (ops : list op) : state := fold_left (fun st o => fst (step st o)) ops (St [] []).

(** ** Invariants of all programs *)

Record separated (st : state) : Prop := {
  sp_alive : forall x a, In x (vars st) -> In a (addrs (vsto x)) -> (a < length (sheap st))%nat;
  sp_origin : forall x, In x (vars st) -> (origin x < length (vars st))%nat;
  sp_data : forall x y, In x (vars st) -> In y (vars st) ->
    data_addr (vsto x) = data_addr (vsto y) -> origin x = origin y;
  sp_index : forall x y, In x (vars st) -> In y (vars st) -> ~ In (data_addr (vsto x)) (index_addrs (vsto y)) }.

Lemma data_in s : In (data_addr s) (addrs s).
Proof. now left. Qed.
Lemma index_in s a : In a (index_addrs s) -> In a (addrs s).
Proof. now right. Qed.

Lemma separated_new st s h' sl : separated st -> extends (sheap st) h' ->
  (length (sheap st) <= data_addr s < length h')%nat ->
  (forall a, In a (index_addrs s) -> a <> data_addr s /\ (a < length h')%nat /\
     ((length (sheap st) <= a)%nat \/ exists x, In x (vars st) /\ In a (index_addrs (vsto x)))) ->
  separated (St h' (vars st ++ [Var s (length (vars st)) sl])).
Proof.
  intros [A O D I] Hx Hd Hi. apply extends_length in Hx. constructor; cbn [sheap vars].
  - intros x a Hin Ha. apply in_app_or in Hin. destruct Hin as [Hin|[<-|[]]].
    + specialize (A x a Hin Ha). lia.
    + destruct Ha as [<-|Ha]; [cbn; lia|]. cbn [vsto] in Ha. apply Hi in Ha. tauto.
  - intros x Hin. rewrite app_length. cbn [length]. apply in_app_or in Hin. destruct Hin as [Hin|[<-|[]]].
    + specialize (O x Hin). lia.
    + cbn. lia.
  - intros x y Hin Hiny E. apply in_app_or in Hin. apply in_app_or in Hiny.
    destruct Hin as [Hin|[<-|[]]], Hiny as [Hiny|[<-|[]]]; cbn [vsto origin] in *.
    + now apply D.
    + pose proof (A x _ Hin (data_in _)). lia.
    + pose proof (A y _ Hiny (data_in _)). lia.
    + reflexivity.
  - intros x y Hin Hiny E. apply in_app_or in Hin. apply in_app_or in Hiny.
    destruct Hin as [Hin|[<-|[]]], Hiny as [Hiny|[<-|[]]]; cbn [vsto origin] in *.
    + now apply (I x y).
    + pose proof (A x _ Hin (data_in _)). apply Hi in E. destruct E as (_ & _ & [E|(z & Hz & E)]); [lia|].
      exact (I x z Hin Hz E).
    + pose proof (A y _ Hiny (index_in _ _ E)). lia.
    + apply Hi in E. tauto.
Qed.

Lemma separated_made st s h' sl : separated st -> extends (sheap st) h' -> made (sheap st) h' s ->
  separated (St h' (vars st ++ [Var s (length (vars st)) sl])).
Proof.
  intros Hs Hx [R Ap]. apply separated_new; auto.
  - apply R, data_in.
  - intros a Ha. pose proof (R a (index_in _ _ Ha)). split; [intros ->; contradiction|]. lia.
Qed.

Lemma separated_same st x s sl : separated st -> In x (vars st) -> data_addr s = data_addr (vsto x) ->
  index_addrs s = index_addrs (vsto x) ->
  separated (St (sheap st) (vars st ++ [Var s (origin x) sl])).
Proof.
  intros [A O D I] Hx Ed Ei.
  assert (R : forall y, In y (vars st ++ [Var s (origin x) sl]) -> exists z, In z (vars st)
     /\ addrs (vsto y) = addrs (vsto z) /\ data_addr (vsto y) = data_addr (vsto z)
     /\ index_addrs (vsto y) = index_addrs (vsto z) /\ origin y = origin z).
  { intros y Hy. apply in_app_or in Hy. destruct Hy as [Hy|[<-|[]]].
    - exists y. auto.
    - exists x. cbn [vsto origin]. unfold addrs. rewrite Ed, Ei. auto. }
  constructor; cbn [sheap vars].
  - intros y a Hy Ha. destruct (R y Hy) as (z & Hz & Ea & _). rewrite Ea in Ha. eapply A; eassumption.
  - intros y Hy. destruct (R y Hy) as (z & Hz & _ & _ & _ & ->). rewrite app_length. specialize (O z Hz). lia.
  - intros y y' Hy Hy' E. destruct (R y Hy) as (z & Hz & _ & E1 & _ & ->). destruct (R y' Hy') as (z' & Hz' & _ & E2 & _ & ->).
    apply D; congruence.
  - intros y y' Hy Hy' E. destruct (R y Hy) as (z & Hz & _ & E1 & _). destruct (R y' Hy') as (z' & Hz' & _ & _ & E2 & _).
    rewrite E1, E2 in E. exact (I z z' Hz Hz' E).
Qed.

Lemma dense_view s : dense_based s -> is_view_class s = true.
Proof. induction s; cbn; tauto || auto. Qed.
Lemma sparse_view s : sparse_based s -> is_view_class s = false.
Proof. induction s; cbn; tauto || auto. Qed.

Lemma setitem_separated st x ix value h' r : separated st -> setitem (sheap st) (vsto x) ix value = (h', r) ->
  separated (St h' (vars st)).
Proof.
  intros [A O D I] E. pose proof (setitem_frame (vsto x) (sheap st) ix value) as F. rewrite E in F.
  constructor; cbn [sheap vars]; auto. intros y a Hy Ha. cbn [fst] in F. rewrite (up_len _ _ _ F). eapply A; eassumption.
Qed.

(** What one operation does to the variables. *)
Inductive moves (st : state) : op -> state -> Prop :=
| mv_none o : moves st o st
| mv_bind o h' x : extends (sheap st) h' -> moves st o (St h' (vars st ++ [x]))
| mv_assign k ix v x src h' r : nth_error (vars st) k = Some x ->
    setitem (sheap st) (vsto x) ix src = (h', r) -> moves st (Assign k ix v) (St h' (vars st)).

Lemma nth_in {A} (l : list A) k x : nth_error l k = Some x -> In x l.
Proof. apply nth_error_In. Qed.

Lemma step_separated st o : separated st -> moves st o (fst (step st o)) /\ separated (fst (step st o)).
Proof.
  intros Hs. destruct o as [c v u|v u d p c|k c u|k d p c u|k ix|k u|k ix value]; cbn [step]; unfold with_var, bind_var.
  - destruct (fromobject _ _ _ _) as [[s h']|] eqn:E; [|split; [constructor|exact Hs]]. cbn [fst].
    pose proof (fromobject_extends _ _ _ _ _ _ E) as Hx. apply fromobject_made in E.
    split; [now constructor|]. now apply separated_made.
  - destruct (dm_fromobject _ _ _ _ _ _) as [[s h']|] eqn:E; [|split; [constructor|exact Hs]]. cbn [fst].
    pose proof (dm_fromobject_extends _ _ _ _ _ _ _ _ E) as Hx. apply dm_fromobject_made in E.
    split; [now constructor|]. now apply separated_made.
  - destruct (nth_error (vars st) k) as [x|] eqn:Ek; [|split; [constructor|exact Hs]].
    destruct (as_storage _ _ _ _) as [[s h']|] eqn:E; [|split; [constructor|exact Hs]]. cbn [fst].
    pose proof (as_storage_extends _ _ _ _ _ _ E) as Hx. apply as_storage_made in E.
    split; [now constructor|]. destruct (is_same_class c (vsto x) && _).
    + destruct E as [-> ->]. apply separated_same; auto. eapply nth_in; exact Ek.
    + now apply separated_made.
  - destruct (nth_error (vars st) k) as [x|] eqn:Ek; [|split; [constructor|exact Hs]].
    destruct (as_DM _ _ _ _ _ _) as [[s h']|] eqn:E; [|split; [constructor|exact Hs]]. cbn [fst]. unfold as_DM in E.
    pose proof (dm_fromobject_extends _ _ _ _ _ _ _ _ E) as Hx. apply dm_fromobject_made in E.
    split; [now constructor|]. now apply separated_made.
  - destruct (nth_error (vars st) k) as [x|] eqn:Ek; [|split; [constructor|exact Hs]].
    destruct (getitem _ _ _) as [[[v|s] h']|] eqn:E; try (split; [constructor|exact Hs]). cbn [fst].
    pose proof (getitem_extends _ _ _ _ _ E) as Hx. apply getitem_addrs in E.
    split; [now constructor|]. destruct E as [(D1 & D2 & -> & E1 & E2)|(D1 & D2 & M)].
    + rewrite (dense_view _ D1). apply separated_same; auto. eapply nth_in; exact Ek.
    + rewrite (sparse_view _ D1). now apply separated_made.
  - destruct (nth_error (vars st) k) as [x|] eqn:Ek; [|split; [constructor|exact Hs]].
    destruct (copy _ _ _) as [[s h']|] eqn:E; [|split; [constructor|exact Hs]]. cbn [fst].
    pose proof (copy_extends _ _ _ _ _ E) as Hx. apply copy_addrs in E. destruct E as [E1 E2].
    split; [now constructor|]. apply separated_new; auto. intros a Ha. rewrite E2 in Ha. apply nth_in in Ek.
    pose proof (sp_alive st Hs x a Ek (index_in _ _ Ha)). apply extends_length in Hx.
    split; [lia|]. split; [lia|]. right. eauto.
  - destruct (nth_error (vars st) k) as [x|] eqn:Ek; [|split; [constructor|exact Hs]].
    assert (G : forall src, let '(h', r) := setitem (sheap st) (vsto x) ix src in
       moves st (Assign k ix value) (St h' (vars st)) /\ separated (St h' (vars st))).
    { intros src. destruct (setitem _ _ _ _) as [h' r] eqn:E. split; [econstructor; eassumption|eapply setitem_separated; eassumption]. }
    destruct value as [v|j].
    + specialize (G (SrcSeq v)). destruct (setitem _ _ _ _) as [h' r]. exact G.
    + destruct (nth_error (vars st) j) as [y|]; [|split; [constructor|exact Hs]].
      specialize (G (SrcSto (vsto y))). destruct (setitem _ _ _ _) as [h' r]. exact G.
Qed.

Lemma run_snoc ops o : run (ops ++ [o]) = fst (step (run ops) o).
Proof. unfold run. now rewrite fold_left_app. Qed.

Lemma run_separated ops : separated (run ops).
Proof.
  induction ops as [|o ops IH] using rev_ind; [constructor; intros ? []; intros; contradiction|].
  rewrite run_snoc. now apply step_separated.
Qed.

(** ** C50 *)

(** An operation never unbinds or rebinds a variable; it leaves every element of
    every array as it was, unless it is an assignment to an array that shares
    its elements with it. *)
Definition assigns_to (st : state) (o : op) (x : var) : Prop :=
  match o with
  | Assign k _ _ => exists y, nth_error (vars st) k = Some y /\ origin y = origin x
  | _ => False
  end.

Theorem C50_only_assignments_change : forall ops o k x,
  nth_error (vars (run ops)) k = Some x ->
  nth_error (vars (run (ops ++ [o]))) k = Some x
  /\ (~ assigns_to (run ops) o x -> forall i v,
        get_elem (sheap (run (ops ++ [o]))) (vsto x) i = Ok v <-> get_elem (sheap (run ops)) (vsto x) i = Ok v).
Proof.
  intros ops o k x Hk. rewrite run_snoc. pose proof (run_separated ops) as Hs.
  destruct (step_separated (run ops) o Hs) as [M _].
  assert (G : nth_error (vars (fst (step (run ops) o))) k = Some x
    /\ (~ assigns_to (run ops) o x -> forall a, In a (addrs (vsto x)) ->
         nth_error (sheap (fst (step (run ops) o))) a = nth_error (sheap (run ops)) a)).
  { destruct M as [|o h' y Hx|k' ix v y src h' r Hk' E].
    - auto.
    - cbn [vars sheap]. split.
      + rewrite nth_error_app1; [exact Hk|]. apply nth_error_Some. congruence.
      + intros _ a Ha. destruct Hx as [t ->]. apply nth_error_app1. eapply sp_alive; [exact Hs|eapply nth_in; exact Hk|exact Ha].
    - cbn [vars sheap]. split; [exact Hk|]. intros Hn a Ha.
      pose proof (setitem_frame (vsto y) (sheap (run ops)) ix src) as F. rewrite E in F. cbn [fst] in F.
      apply (up_other _ _ _ F). intros ->. destruct Ha as [Ha|Ha].
      + apply Hn. exists y. split; [exact Hk'|]. symmetry. apply (sp_data _ Hs); auto; eapply nth_in; eassumption.
      + revert Ha. apply (sp_index _ Hs); eapply nth_in; eassumption. }
  destruct G as [G1 G2]. split; [exact G1|]. intros Hn i v. specialize (G2 Hn).
  split; apply get_elem_frame; [intros a Ha; symmetry; now apply G2|exact G2].
Qed.
Print Assumptions C50_only_assignments_change.

(** Views show assignments, copies and conversions do not: x = Strided([[1, 2],
    [3, 4]]); y = x[1]; z = x.copy(); w = x.as_COO(); y[0] = 9. *)
Example C50_case :
  let st := run [New CStrided nested_2x2 None; Slice 0 (XItem (IInt 1)); Copy 0 None; As 0 CCOO None;
                 Assign 1 (XItem (IInt 0)) (OList (VInt 9))] in
  map origin (vars st) = [0; 0; 2; 3]%nat
  /\ map (fun x => get_elem (sheap st) (vsto x) [1; 0]) (firstn 1 (vars st) ++ skipn 2 (vars st))
     = [Ok (VInt 9); Ok (VInt 3); Ok (VInt 3)].
Proof. vm_compute. split; reflexivity. Qed.

(** ** C49 *)

(** Slices: Buffer has windows, the others all indices within their rank that
    keep an axis; a slice of a DM array is not sliced again by integers (C30). *)
Definition sliceable (x : var) (ix : pyindex) : Prop :=
  match vsto x with
  | SBuffer b => ix = XItem INone \/ exists i j, 0 <= i /\ i < j /\ j <= bsize b /\ ix = window i j
  | s => positive (shape_of s) /\ ok_index ix (shape_of s) /\ slice_shape ix (shape_of s) <> []
         /\ (is_dm s -> sliced x = true -> int_free ix)
  end.

(** Supported uses of the constructors, conversions, slices and copies;
    assignments are not restricted. *)
Definition allowed (st : state) (o : op) : Prop :=
  match o with
  | New c v u => exists sh, regular sh v /\ class_rank c sh
      /\ (c = CCSR -> exists i x, in_box i sh /\ nested_at v i = Some x /\ x <> VNone /\ x <> chosen VNone u)
  | NewDM v u d p c => exists sh, regular sh v /\ positive sh /\ mapping_ok (zlen sh) d p
      /\ dm_rank_ok c (n_groups c (zlen sh) p)
      /\ (c = CCSR -> exists i x, in_box i sh /\ nested_at v i = Some x /\ x <> VNone /\ x <> chosen VNone u)
  | As k c u => exists x, nth_error (vars st) k = Some x /\ positive (shape_of (vsto x)) /\ shape_of (vsto x) <> []
      /\ class_rank c (shape_of (vsto x))
      /\ (c = CCSR -> some_element_stays (sheap st) (vsto x) (chosen (unspecified_of (vsto x)) u))
  | AsDM k d p c u => exists x, nth_error (vars st) k = Some x /\ positive (shape_of (vsto x))
      /\ mapping_ok (zlen (shape_of (vsto x))) d p /\ dm_rank_ok c (n_groups c (zlen (shape_of (vsto x))) p)
      /\ (c = CCSR -> some_element_stays (sheap st) (vsto x) (chosen (unspecified_of (vsto x)) u))
  | Slice k ix => exists x, nth_error (vars st) k = Some x /\ sliceable x ix
  | Copy k u => (k < length (vars st))%nat
  | Assign _ _ _ => True
  end.

Definition legal (ops : list op) : Prop :=
  forall before o after, ops = before ++ o :: after -> allowed (run before) o.

Definition tidy (x : var) : Prop :=
  is_dm (vsto x) -> if sliced x then no_empty (vsto x) else zero_off (vsto x).
Definition good (st : state) : Prop :=
  forall x, In x (vars st) -> valid (sheap st) (vsto x) /\ tidy x.

Lemma good_bind st s h' o sl : good st -> extends (sheap st) h' -> valid h' s -> tidy (Var s o sl) ->
  good (St h' (vars st ++ [Var s o sl])).
Proof.
  intros Hg Hx Hv Ht x Hin. cbn [vars sheap] in *. apply in_app_or in Hin. destruct Hin as [Hin|[<-|[]]].
  - destruct (Hg x Hin) as [[f Hf] H]. split; [|exact H]. exists f. eapply repr_extends; eassumption.
  - auto.
Qed.

Lemma built_tidy h h' s o : built_dm h h' s -> tidy (Var s o false) /\ valid h' s.
Proof.
  intros H. apply built_dm_ok in H. destruct H as (f & Hr & Hz & _). split; [|now exists f]. intros _. exact Hz.
Qed.

Lemma class_not_dm c s o : is_class c s -> c <> CDM -> tidy (Var s o false).
Proof. intros Hc Hn Hd. cbn [vsto] in Hd. destruct s; try contradiction. now destruct c. Qed.

Lemma copy_tidy : forall s h f u t h', repr h s f -> copy h s u = Ok (t, h') ->
  (zero_off s -> zero_off t) /\ (no_empty s -> no_empty t) /\ (is_dm t -> is_dm s).
Proof.
  induction s as [b|t|sh ind d|sh fi d|sh cr co d|sh ch a b c d|sh rd rsh rs ro d IH]; intros h f u r h' Hr H.
  1-5: destruct (copy_ok _ h f u Hr) as (t' & h1 & E1 & _ & _ & _ & _ & _ & _ & E); rewrite H in E1; injection E1 as <- <-;
     destruct r; try contradiction; cbn; auto.
  - destruct Hr as (E & [] & _).
  - destruct Hr as (g & Hg & _). cbn [copy] in H. apply bind_ok in H. destruct H as ([d' h1] & E & H).
    apply bind_ok in H. destruct H as (x & X & H). injection H as <- <-. apply mk_dm_eq in X. destruct X as (rsh' & ->).
    destruct (IH _ _ _ _ _ Hg E) as (H1 & H2 & _). cbn. tauto.
Qed.

Lemma assign_good st x ix src h' r : separated st -> good st -> In x (vars st) ->
  setitem (sheap st) (vsto x) ix src = (h', r) -> good (St h' (vars st)).
Proof.
  intros Hs Hg Hx E y Hy. cbn [vars sheap] in *. destruct (Hg y Hy) as [Hv Ht]. split; [|exact Ht].
  pose proof (setitem_frame (vsto x) (sheap st) ix src) as F. rewrite E in F. cbn [fst] in F.
  eapply valid_updated; [exact Hv|exact F|]. apply (sp_index _ Hs); assumption.
Qed.

Lemma fromobject_dm_built h v sh u s h' : regular sh v -> class_rank CDM sh ->
  fromobject CDM h (SrcSeq v) (fo_unspecified u) = Ok (s, h') -> built_dm h h' s.
Proof.
  intros Hreg [Hne Hp] E. eapply (built_seq h v sh u None None CStrided); try exact E; auto; try discriminate.
  - constructor; try discriminate. destruct sh; [congruence|unfold zlen; cbn; lia].
  - exact I.
Qed.

(** One allowed operation keeps the arrays well-formed and, unless it is an
    assignment, succeeds. *)
Lemma step_good st o : separated st -> good st -> allowed st o ->
  good (fst (step st o)) /\ (match o with Assign _ _ _ => True | _ => snd (step st o) = Ok tt end).
Proof.
  intros Hs Hg Ha. destruct o as [c v u|v u d p c|k c u|k d p c u|k ix|k u|k ix value]; cbn [step allowed] in *; unfold with_var, bind_var.
  - destruct Ha as (sh & Hreg & Hc & Hsp).
    destruct (C22_fromobject_elements c (sheap st) v sh u Hreg Hc Hsp) as (s & h' & E & C & _ & _ & Hv & _).
    rewrite E. cbn [fst snd]. split; [|reflexivity].
    apply good_bind; auto; [eapply fromobject_extends; exact E|].
    assert (D : c = CDM \/ c <> CDM) by (destruct c; (left; reflexivity) || (right; discriminate)).
    destruct D as [->|D]; [|eapply class_not_dm; eassumption].
    eapply built_tidy, fromobject_dm_built; eassumption.
  - destruct Ha as (sh & Hreg & Hp & Hm & Hr & Hsp).
    destruct (C28_dm_elements c (sheap st) v sh u d p) as (rd & rsh & rst & ro & dd & h' & E & _); auto.
    assert (B : built_dm (sheap st) h' (SDM sh rd rsh rst ro dd)) by (eapply built_seq; eassumption).
    rewrite E. cbn [fst snd]. split; [|reflexivity]. destruct (built_tidy _ _ _ (length (vars st)) B) as [T V].
    apply good_bind; auto. eapply dm_fromobject_extends; exact E.
  - destruct Ha as (x & Ek & Hp & Hne & Hc & Hst). rewrite Ek. pose proof (nth_in _ _ _ Ek) as Hin.
    destruct (Hg x Hin) as [Hv Ht].
    destruct (C24_conversion c (sheap st) (vsto x) u Hv Hp Hne Hc Hst) as (t & h' & E & C & _ & Hv' & Hx & _).
    rewrite E. cbn [fst snd]. split; [|reflexivity]. apply good_bind; auto.
    pose proof (as_storage_made _ _ _ _ _ _ E) as M. destruct (is_same_class c (vsto x) && _).
    + destruct M as [-> _]. exact Ht.
    + assert (D : c = CDM \/ c <> CDM) by (destruct c; (left; reflexivity) || (right; discriminate)).
      destruct D as [->|D]; [|eapply class_not_dm; eassumption].
      assert (B : built_dm (sheap st) h' t).
      { eapply (built_sto (sheap st) (vsto x) u None None CStrided); try exact E; auto; try discriminate.
        - constructor; try discriminate. destruct (shape_of (vsto x)); [congruence|unfold zlen; cbn; lia].
        - exact I. }
      eapply built_tidy; exact B.
  - destruct Ha as (x & Ek & Hp & Hm & Hc & Hst). rewrite Ek. pose proof (nth_in _ _ _ Ek) as Hin.
    destruct (Hg x Hin) as [Hv Ht].
    destruct (C24_as_DM (sheap st) (vsto x) d p c u Hv Hp Hm Hc Hst) as (t & h' & E & C & _ & Hv' & Hx & _).
    assert (B : built_dm (sheap st) h' t) by (eapply built_sto; eassumption).
    rewrite E. cbn [fst snd]. split; [|reflexivity]. apply good_bind; auto. eapply built_tidy; exact B.
  - destruct Ha as (x & Ek & Hsl). rewrite Ek. pose proof (nth_in _ _ _ Ek) as Hin. destruct (Hg x Hin) as [Hv Ht].
    assert (G : exists t h', getitem (sheap st) (vsto x) ix = Ok (ISto t, h') /\ valid h' t).
    { unfold sliceable in Hsl. destruct Hv as [f Hr].
      assert (D : (exists b, vsto x = SBuffer b) \/ (forall b, vsto x <> SBuffer b))
        by (destruct (vsto x); (left; eexists; reflexivity) || (right; discriminate)).
      destruct D as [[b Eb]|D].
      - rewrite Eb in *. destruct Hsl as [->|(i & j & H1 & H2 & H3 & ->)].
        + exists (SBuffer b), (sheap st). split; [reflexivity|now exists f].
        + destruct (C44_windows (sheap st) b i j) as (w & E & V & _); auto; [now exists f|]. eauto.
      - assert (Hsl' : positive (shape_of (vsto x)) /\ ok_index ix (shape_of (vsto x))
           /\ slice_shape ix (shape_of (vsto x)) <> [] /\ (is_dm (vsto x) -> sliced x = true -> int_free ix)).
        { destruct (vsto x); try exact Hsl. now contradiction (D b). }
        destruct Hsl' as (Hp & Hok & Hne & Hfree).
        assert (S : safe_index (vsto x) ix).
        { assert (Dm : is_dm (vsto x) \/ ~ is_dm (vsto x)) by (destruct (vsto x); cbn; auto).
          destruct Dm as [Dm|Dm].
          - specialize (Ht Dm). destruct (sliced x).
            + eapply safe_int_free; eauto.
            + eapply safe_zero; eassumption.
          - apply plain_safe. destruct (vsto x); cbn in *; auto; try (now contradiction (D b)); try tauto.
            destruct Hr as (E & [] & _). }
        destruct (getitem_slice _ _ _ ix Hr Hp Hok Hne S) as (t & h' & E & _ & _ & _ & Hr' & _).
        exists t, h'. split; [exact E|]. eexists. exact Hr'. }
    destruct G as (t & h' & E & V). rewrite E. cbn [fst snd]. split; [|reflexivity]. apply good_bind; auto.
    + eapply getitem_extends; exact E.
    + intros _. cbn [sliced vsto]. eapply slice_no_empty; exact E.
  - destruct (nth_error (vars st) k) as [x|] eqn:Ek; [|apply nth_error_None in Ek; lia].
    pose proof (nth_in _ _ _ Ek) as Hin. destruct (Hg x Hin) as [[f Hr] Ht].
    destruct (copy_ok _ _ f u Hr) as (t & h' & E & _ & _ & Hx & Hr' & _). rewrite E. cbn [fst snd]. split; [|reflexivity].
    apply good_bind; auto; [eexists; exact Hr'|].
    destruct (copy_tidy _ _ _ _ _ _ Hr E) as (T1 & T2 & T3). intros Hd. cbn [vsto sliced] in *.
    specialize (Ht (T3 Hd)). destruct (sliced x); auto.
  - split; [|exact I]. destruct (nth_error (vars st) k) as [x|] eqn:Ek; [|exact Hg].
    pose proof (nth_in _ _ _ Ek) as Hin.
    assert (G : forall src, good (fst (let '(h', r) := setitem (sheap st) (vsto x) ix src in (St h' (vars st), r)))).
    { intros src. destruct (setitem _ _ _ _) as [h' r] eqn:E. cbn [fst]. eapply assign_good; eassumption. }
    destruct value as [v|j]; [apply G|]. destruct (nth_error (vars st) j) as [y|]; [apply G|exact Hg].
Qed.

Lemma legal_snoc ops o : legal (ops ++ [o]) -> legal ops /\ allowed (run ops) o.
Proof.
  intros H. split; [|now apply (H ops o [])]. intros b x a E. apply (H b x (a ++ [o])). rewrite E, <- app_assoc. reflexivity.
Qed.

Lemma run_good ops : legal ops -> good (run ops).
Proof.
  induction ops as [|o ops IH] using rev_ind; [intros _ x []|].
  intros H. apply legal_snoc in H. destruct H as [H1 H2]. rewrite run_snoc.
  apply step_good; auto. apply run_separated.
Qed.

(** Every array a program holds satisfies the invariants of its class; all its
    elements can be read. *)
Theorem C49_well_formed : forall ops x, legal ops -> In x (vars (run ops)) ->
  valid (sheap (run ops)) (vsto x)
  /\ forall i, in_box i (shape_of (vsto x)) -> exists v, get_elem (sheap (run ops)) (vsto x) i = Ok v.
Proof.
  intros ops x H Hx. destruct (run_good ops H x Hx) as [[f Hr] _]. split; [now exists f|].
  intros i Hi. exists (f i). now apply repr_get.
Qed.
Print Assumptions C49_well_formed.

(** Supported operations never raise. *)
Theorem C49_no_exceptions : forall ops o, legal ops -> allowed (run ops) o ->
  (forall k ix v, o <> Assign k ix v) -> snd (step (run ops) o) = Ok tt.
Proof.
  intros ops o H Ha Hn. destruct (step_good (run ops) o (run_separated ops) (run_good ops H) Ha) as [_ G].
  destruct o; try exact G. now contradiction (Hn k ix value).
Qed.
Print Assumptions C49_no_exceptions.

Lemma legal_nil : legal [].
Proof. intros b o a E. destruct b; discriminate. Qed.
Lemma legal_add ops o : legal ops -> allowed (run ops) o -> legal (ops ++ [o]).
Proof.
  intros H Ha b x a E. destruct a as [|y a].
  - apply app_inj_tail in E. destruct E as [-> ->]. exact Ha.
  - destruct (exists_last (l := y :: a)) as (a' & z & Ea); [discriminate|]. rewrite Ea in E.
    change (x :: a' ++ [z]) with ((x :: a') ++ [z]) in E. rewrite app_assoc in E. apply app_inj_tail in E.
    destruct E as [-> _]. now apply (H b x a').
Qed.

(** x = Strided([[1, 2], [3, 4]]); y = x[1]; z = x.as_CSR(); x[0, 0] = None;
    w = z.copy(); y[5] = 7; v = z[:, 1]. *)
Example C49_case :
  let ops := [New CStrided nested_2x2 None; Slice 0 (XItem (IInt 1)); As 0 CCSR None;
              Assign 0 (int_tuple [0; 0]) (OList VNone); Copy 2 None; Assign 1 (XItem (IInt 5)) (OList (VInt 7));
              Slice 2 (XTuple [ISlice (Sl None None None); IInt 1])] in
  legal ops
  /\ map (fun x => shape_of (vsto x)) (vars (run ops)) = [[2; 2]; [2]; [2; 2]; [2; 2]; [2]].
Proof.
  intros ops. split; [|vm_compute; reflexivity]. unfold ops.
  assert (P : positive [2; 2]) by (repeat constructor; lia).
  do 7 only 1: match goal with |- legal ?l =>
    let l' := eval compute in (firstn (length l - 1) l) in
    let x := eval compute in (skipn (length l - 1) l) in
    match x with [?o] => change l with (l' ++ [o]); apply legal_add end end.
  - apply legal_nil.
  - exists [2; 2]. split; [repeat (split || constructor); cbn; discriminate|]. split; [exact I|discriminate].
  - eexists. split; [vm_compute; reflexivity|]. split; [exact P|]. split; [split; [repeat constructor; cbn; lia|right; cbn; lia]|].
    split; [discriminate|intros []].
  - eexists. split; [vm_compute; reflexivity|]. split; [exact P|]. split; [discriminate|]. split; [reflexivity|].
    intros _. exists [0; 1], (VInt 2). split; [repeat constructor; lia|]. split; [vm_compute; reflexivity|].
    split; discriminate.
  - exact I.
  - apply Nat.ltb_lt. vm_compute. reflexivity.
  - exact I.
  - eexists. split; [vm_compute; reflexivity|]. split; [exact P|].
    split; [split; [repeat constructor; cbn; lia || discriminate|right; cbn; lia]|].
    split; [discriminate|intros []].
Qed.

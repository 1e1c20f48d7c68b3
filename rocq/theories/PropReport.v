(** C93: what python setup.py version prints. *)
From Coq Require Import String Ascii Bool Arith Lia List.
From Verif Require Import Version VersionFacts Versioneer Setup Project.
Import ListNotations.
Open Scope list_scope.

(** * Specification *)
Definition shown (o : option text) : text := match o with Some t => t | None => T "None" end.
Definition shown_flag (o : option bool) : text :=
  match o with Some true => T "True" | Some false => T "False" | None => T "None" end.
(** The lines for a version. *)
Definition lines_for (v : versions) : list text :=
  [T "Version: " ++ v_version v; T " full-revisionid: " ++ shown (v_full v); T " dirty: " ++ shown_flag (v_dirty v);
   T " date: " ++ shown (v_date v)]
  ++ match v_error v with None | Some [] => [] | Some e => [T " error: " ++ e] end.
Definition printed (l : list text) : text := concat (map (fun x => x ++ [newline]) l).

(** * Theorems *)

(** The version of setup(), the revision, the flag, the date, and the error if there
    is one. *)
Theorem C93_prints : forall d p v, versioneer_get_versions d p = POk (dict_of v) ->
  cmd_version d p = (printed (lines_for v), POk tt)
  /\ versioneer_get_version d p = POk (JText (v_version v)).
Proof.
  intros d p v E. unfold cmd_version, versioneer_get_version. rewrite E. split; [|reflexivity].
  destruct v as [ver full dirty err date].
  change (report (dict_of (Versions ver full dirty err date))) with
    ((T "Version: " ++ ver ++ newline :: T " full-revisionid: " ++ py_str (opt_text full) ++ newline ::
       T " dirty: " ++ py_str (match dirty with Some b => JBool b | None => JNull end) ++ newline ::
       T " date: " ++ py_str (opt_text date) ++ [newline])
     ++ (if py_true (opt_text err) then T " error: " ++ py_str (opt_text err) ++ [newline] else []), @POk unit tt).
  f_equal. unfold printed, lines_for. cbn [v_version v_full v_dirty v_date v_error].
  assert (S1 : forall o, py_str (opt_text o) = shown o) by (intros []; reflexivity).
  assert (S2 : py_str (match dirty with Some b => JBool b | None => JNull end) = shown_flag dirty) by (destruct dirty as [[]|]; reflexivity).
  rewrite !S1, S2. rewrite map_app, concat_app. cbn [map concat]. rewrite app_nil_r.
  f_equal; [rewrite <- !app_assoc; reflexivity|].
  destruct err as [[|c e]|]; [reflexivity| |reflexivity]. cbn [opt_text py_true shown map concat]. rewrite app_nil_r. now rewrite <- !app_assoc.
Qed.
Print Assumptions C93_prints.

(** Whatever dictionary get_versions returns (one read from a file may be any): the
    first line is the version setup() gets; without a version nothing is printed,
    and without an error entry KeyError is raised after the other lines. *)
Theorem C93_first_line : forall d p v, versioneer_get_versions d p = POk v ->
  (forall j, versioneer_get_version d p = POk j ->
     (exists rest, fst (cmd_version d p) = T "Version: " ++ py_str j ++ newline :: rest)
     /\ (snd (cmd_version d p) = POk tt <-> exists k, In (T "error", k) v)
     /\ (~ (exists k, In (T "error", k) v) -> snd (cmd_version d p) = PRaise (Computing VKeyError)))
  /\ (forall e, versioneer_get_version d p = PRaise e -> cmd_version d p = ([], PRaise e)).
Proof.
  intros d p v E. unfold cmd_version, versioneer_get_version. rewrite E. cbn [pbind]. unfold report.
  split.
  - intros j Ej. destruct (dict_get v (T "version")) as [x|] eqn:Ev; [|discriminate]. injection Ej as ->.
    assert (G : (exists k, In (T "error", k) v) <-> exists k, dict_get v (T "error") = VOk k).
    { unfold dict_get. destruct (find _ (rev v)) as [[y k]|] eqn:Ef.
      - split; [eauto|]. intros _. apply find_some in Ef. destruct Ef as [Hin Heq]. apply text_eqb_eq in Heq. cbn [fst] in Heq. subst y.
        exists k. now apply in_rev.
      - split; [|intros [k Hk]; discriminate]. intros [k Hin]. apply in_rev in Hin. apply (find_none _ _ Ef) in Hin.
        cbn [fst] in Hin. assert (X : text_eqb (T "error") (T "error") = true) by now apply text_eqb_eq. congruence. }
    rewrite G. destruct (dict_get v (T "error")) as [k|e] eqn:Ee; cbn [fst snd].
    + split; [eexists; rewrite <- !app_assoc; cbn [app]; reflexivity|]. split; [split; eauto|]. intros H. contradiction H. eauto.
    + split; [eexists; reflexivity|]. split; [split; [discriminate|intros [k Hk]; discriminate]|]. intros _.
      unfold dict_get in Ee. destruct (find _ _); [discriminate|]. now injection Ee as <-.
  - intros e Ee. destruct (dict_get v (T "version")) as [x|] eqn:Ev; [discriminate|]. cbn [computing] in Ee. congruence.
Qed.
Print Assumptions C93_first_line.

(** The value of a key that the version file of another versioneer may lack; of a
    repeated key the last one counts. *)
Definition entry (v : dict) (key : text) (o : option jval) : Prop :=
  match o with
  | None => forall x, ~ In (key, x) v
  | Some x => exists a b, v = a ++ (key, x) :: b /\ forall y, ~ In (key, y) b
  end.
Lemma dict_entry v key : exists o, entry v key o /\ dict_get v key = match o with Some x => VOk x | None => VRaise VKeyError end.
Proof.
  unfold dict_get. induction v as [|[k x] v IH] using rev_ind; [exists None; split; [intros x []|reflexivity]|].
  rewrite rev_app_distr. cbn [rev app find fst snd]. destruct (text_eqb k key) eqn:Ek.
  - apply text_eqb_eq in Ek. subst k. exists (Some x). split; [|reflexivity]. exists v, []. split; [reflexivity|intros y []].
  - assert (N : k <> key) by (intros ->; rewrite (proj2 (text_eqb_eq key key) eq_refl) in Ek; discriminate).
    destruct IH as (o & Ho & E). exists o. split; [|exact E]. destruct o as [y|].
    + destruct Ho as (a & b & -> & Hb). exists a, (b ++ [(k, x)]). rewrite <- app_assoc. split; [reflexivity|].
      intros z Hz. apply in_app_or in Hz as [Hz|[Hz|[]]]; [now apply (Hb z)|congruence].
    + intros z Hz. apply in_app_or in Hz as [Hz|[Hz|[]]]; [now apply (Ho z)|congruence].
Qed.

Lemma entry_unique v key x y : entry v key (Some x) -> entry v key (Some y) -> x = y.
Proof.
  intros (a & b & -> & Hb) (a' & b' & Ea' & Hb'). revert a' Ea'. induction a as [|e a IH]; intros [|e' a'] Ea'; cbn [app] in Ea'.
  - now injection Ea' as -> _.
  - injection Ea' as <- ->. exfalso. apply (Hb y), in_or_app. right. now left.
  - injection Ea' as -> <-. exfalso. apply (Hb' x), in_or_app. right. now left.
  - injection Ea' as _ Ea'. now apply (IH a').
Qed.

(** Whatever the dictionary: a line for each of the three other values, None for
    those it does not have. *)
Theorem C93_lacking : forall d p v j, versioneer_get_versions d p = POk v -> versioneer_get_version d p = POk j ->
  let value o := match o with Some x => py_str x | None => T "None" end in
  exists full dirty date rest, entry v (T "full-revisionid") full /\ entry v (T "dirty") dirty /\ entry v (T "date") date
    /\ fst (cmd_version d p) = T "Version: " ++ py_str j ++ newline :: T " full-revisionid: " ++ value full ++ newline ::
         T " dirty: " ++ value dirty ++ newline :: T " date: " ++ value date ++ newline :: rest
    /\ (rest = [] \/ exists x, entry v (T "error") (Some x) /\ py_true x = true /\ rest = T " error: " ++ py_str x ++ [newline])
    /\ (forall x, entry v (T "error") (Some x) -> py_true x = true -> rest <> []).
Proof.
  intros d p v j E Ej value. unfold cmd_version, versioneer_get_version in *. rewrite E in *. cbn [pbind] in Ej. unfold report.
  destruct (dict_get v (T "version")) as [x|]; [|discriminate]. injection Ej as ->.
  destruct (dict_entry v (T "full-revisionid")) as (o1 & H1 & E1). destruct (dict_entry v (T "dirty")) as (o2 & H2 & E2).
  destruct (dict_entry v (T "date")) as (o3 & H3 & E3). destruct (dict_entry v (T "error")) as (o4 & H4 & E4).
  unfold get_or_none. rewrite E1, E2, E3, E4.
  assert (V : forall o, py_str (match (match o with Some x => VOk x | None => VRaise VKeyError end) with VOk v => v | VRaise _ => JNull end) = value o)
    by (intros []; reflexivity). rewrite !V. exists o1, o2, o3.
  pose proof (entry_unique v (T "error")) as U.
  destruct o4 as [y|]; cbn [fst].
  - exists (if py_true y then T " error: " ++ py_str y ++ [newline] else []). split; [exact H1|]. split; [exact H2|]. split; [exact H3|].
    split; [|split].
    + rewrite <- !app_assoc. cbn [app]. rewrite <- !app_assoc. cbn [app]. rewrite <- !app_assoc. cbn [app]. rewrite <- !app_assoc. reflexivity.
    + destruct (py_true y) eqn:Ey; [right; exists y; auto|now left].
    + intros x Hx Tx. rewrite (U _ _ Hx H4) in Tx. rewrite Tx. discriminate.
  - exists []. split; [exact H1|]. split; [exact H2|]. split; [exact H3|]. split; [reflexivity|]. split; [now left|].
    intros x (a & b & -> & _) _. exfalso. apply (H4 x), in_or_app. right. now left.
Qed.
Print Assumptions C93_lacking.

(** A dictionary without a version, and only such a one, makes the command print
    nothing; it is a KeyError, as it is for setup(). *)
Theorem C93_no_version : forall d p v, versioneer_get_versions d p = POk v ->
  ((forall x, ~ In (T "version", x) v) <-> fst (cmd_version d p) = [])
  /\ ((forall x, ~ In (T "version", x) v) -> snd (cmd_version d p) = PRaise (Computing VKeyError)
       /\ versioneer_get_version d p = PRaise (Computing VKeyError)).
Proof.
  intros d p v E. unfold cmd_version, versioneer_get_version. rewrite E. cbn [pbind]. unfold report.
  destruct (dict_entry v (T "version")) as (o & Ho & Eo). rewrite Eo. destruct o as [x|].
  - assert (N : ~ forall y, ~ In (T "version", y) v).
    { intros H. destruct Ho as (a & b & -> & _). apply (H x), in_or_app. right. now left. }
    split; [|intros H; contradiction]. split; [intros H; contradiction|].
    destruct (dict_get v (T "error")); discriminate.
  - split; [split; [reflexivity|intros _; exact Ho]|]. intros _. split; reflexivity.
Qed.
Print Assumptions C93_no_version.

(** When get_versions fails so does the command, with the same exception. *)
Theorem C93_fails : forall d p e, versioneer_get_versions d p = PRaise e -> cmd_version d p = ([], PRaise e).
Proof. intros d p e E. unfold cmd_version. now rewrite E. Qed.
Print Assumptions C93_fails.

(** The report determines the dictionary. *)
Lemma first_line a b x y : ~ In newline a -> ~ In newline b -> a ++ newline :: x = b ++ newline :: y -> a = b /\ x = y.
Proof.
  revert b. induction a as [|c a IH]; intros [|e b] Ha Hb E; cbn [app] in E.
  - injection E as ->. auto.
  - injection E as <- _. now elim Hb; left.
  - injection E as -> _. now elim Ha; left.
  - injection E as -> E. destruct (IH b) as [-> ->]; auto; intros X; [apply Ha|apply Hb]; now right.
Qed.
Definition one_line (o : option text) : Prop := forall t, o = Some t -> ~ In newline t /\ t <> T "None".
Definition reportable (v : versions) : Prop :=
  ~ In newline (v_version v) /\ one_line (v_full v) /\ one_line (v_date v) /\ v_error v <> Some []
  /\ (forall e, v_error v = Some e -> ~ In newline e).
Theorem C93_determines : forall v v', reportable v -> reportable v' -> printed (lines_for v) = printed (lines_for v') -> v = v'.
Proof.
  intros [a f d e t] [a' f' d' e' t'] (A & F & D & E0 & E) (A' & F' & D' & E0' & E') H.
  cbn [v_version v_full v_dirty v_date v_error] in *. unfold printed, lines_for in H. cbn [v_version v_full v_dirty v_date v_error] in H.
  rewrite !map_app, !concat_app in H. cbn [map concat] in H. rewrite !app_nil_r in H. rewrite <- !app_assoc in H. cbn [app] in H.
  assert (NS : forall o, one_line o -> ~ In newline (shown o)).
  { intros [x|] Ho; [apply (Ho x eq_refl)|]. intros X. repeat (destruct X as [X|X]; [discriminate|]). exact X. }
  assert (NF : forall o, ~ In newline (shown_flag o)).
  { intros [[]|] X; repeat (destruct X as [X|X]; [discriminate|]); exact X. }
  assert (IS : forall o o', one_line o -> one_line o' -> shown o = shown o' -> o = o').
  { intros [x|] [y|] Ho Ho' X; cbn [shown] in X; [congruence| | |reflexivity].
    - now elim (proj2 (Ho x eq_refl)).
    - now elim (proj2 (Ho' y eq_refl)). }
  assert (IF : forall o o', shown_flag o = shown_flag o' -> o = o') by (intros [[]|] [[]|]; try reflexivity; discriminate).
  apply app_inv_head in H. apply first_line in H; [|assumption|assumption]. destruct H as [<- H].
  apply app_inv_head in H. apply first_line in H; [|now apply NS|now apply NS]. destruct H as [Hf H]. apply IS in Hf; [|assumption|assumption].
  apply app_inv_head in H. apply first_line in H; [|apply NF|apply NF]. destruct H as [Hd H]. apply IF in Hd.
  apply app_inv_head in H. apply first_line in H; [|now apply NS|now apply NS]. destruct H as [Ht H]. apply IS in Ht; [|assumption|assumption].
  subst. f_equal. destruct e as [[|c e]|]; [now elim E0| |]; destruct e' as [[|c' e']|]; try (now elim E0'); try reflexivity; cbn [map concat] in H.
  - rewrite !app_nil_r, <- !app_assoc in H. apply app_inv_head in H. apply first_line in H; [|now apply E|now apply E'].
    now destruct H as [-> _].
Qed.
Print Assumptions C93_determines.

Example C93_case :
  let v := Versions (T "0.1+2.gabc") (Some (T "abcdef")) (Some false) None (Some (T "2021-01-15T10:00:00+0200")) in
  reportable v /\ printed (lines_for v) = unlines ["Version: 0.1+2.gabc"; " full-revisionid: abcdef"; " dirty: False";
    " date: 2021-01-15T10:00:00+0200"]%string.
Proof.
  cbn zeta. split; [|reflexivity].
  assert (N : forall s, has_char newline s = false -> ~ In newline s) by (intros s H X; apply has_char_iff in X; congruence).
  repeat split; try discriminate; try (apply N; reflexivity);
  intros; match goal with H : Some _ = Some _ |- _ => injection H as <- | H : None = Some _ |- _ => discriminate H | _ => idtac end;
    try discriminate; try (apply N; reflexivity).
  all: try (injection H as <-; first [discriminate|apply N; reflexivity]).
Qed.

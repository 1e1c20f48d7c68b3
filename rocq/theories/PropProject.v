(** C86: setup.py passes to setup() the version of its own tree, wherever it is
    started from; what it leaves behind. *)
From Coq Require Import DecimalString NArith ZArith String Ascii Bool Arith Lia List.
From Verif Require Import Version VersionFacts PropVersion Versioneer PropDist PropDict Setup PropSetup Project PropConfig.
Import ListNotations.
Open Scope list_scope.

(** * Specification: directories *)

(** A directory is the list of the names on the way from the root. *)
Definition name (c : text) : Prop := path_name c /\ c <> T "." /\ c <> T "..".
Definition abs (dir : list text) : text := T "/" ++ join (T "/") dir.
(** Following a relative path. *)
Definition step (dir : list text) (c : text) : list text :=
  if text_eqb c (T "..") then removelast dir else if text_eqb c (T ".") then dir else dir ++ [c].
Definition walk (dir : list text) (steps : list text) : list text := fold_left step steps dir.

(** * Paths *)
Lemma split_join ws : ws <> [] -> Forall (fun w => ~ In "/"%char w) ws -> split_on "/" (join (T "/") ws) = ws.
Proof.
  intros Hne H. induction H as [|w ws Hw Hws IH]; [congruence|]. destruct ws as [|v ws].
  - now apply split_on_last.
  - change (join (T "/") (w :: v :: ws)) with (w ++ "/"%char :: join (T "/") (v :: ws)).
    rewrite split_on_app by exact Hw. f_equal. apply IH. discriminate.
Qed.
Lemma removelast_snoc {A} (l : list A) x : removelast (l ++ [x]) = l.
Proof. rewrite removelast_app by discriminate. cbn. apply app_nil_r. Qed.

Lemma name_eqb c : name c -> text_eqb c (T "..") = false /\ text_eqb c (T ".") = false /\ is_nil c = false.
Proof.
  intros [[Hn _] [H1 H2]]. split; [now apply text_eqb_neq|]. split; [now apply text_eqb_neq|]. destruct c; [congruence|reflexivity].
Qed.
Lemma norm_steps steps : Forall path_name steps -> forall dir, Forall name dir ->
  fold_left (norm_step true) steps (rev dir) = rev (walk dir steps) /\ Forall name (walk dir steps).
Proof.
  intros H. induction H as [|c steps Hc _ IH]; intros dir Hd; [split; [reflexivity|exact Hd]|].
  cbn [fold_left walk].
  assert (E : norm_step true (rev dir) c = rev (step dir c) /\ Forall name (step dir c)).
  { unfold norm_step, step. destruct c as [|x c]; [now destruct Hc|]. cbn [is_nil orb].
    destruct (text_eqb (x :: c) (T "..")) eqn:E2.
    - apply text_eqb_eq in E2. rewrite E2. change (text_eqb (T "..") (T ".")) with false. cbn [negb andb orb].
      destruct (rev dir) as [|d r] eqn:Er.
      + apply (f_equal (@rev text)) in Er. rewrite rev_involutive in Er. subst dir. split; [reflexivity|constructor].
      + assert (Ed : dir = rev r ++ [d]) by (apply (f_equal (@rev text)) in Er; now rewrite rev_involutive in Er).
        rewrite Ed in Hd. apply Forall_app in Hd. destruct Hd as [Hr Hdd]. apply Forall_inv in Hdd.
        destruct (name_eqb d Hdd) as [-> _]. rewrite Ed, removelast_snoc, rev_involutive. split; [reflexivity|exact Hr].
    - destruct (text_eqb (x :: c) (T ".")) eqn:E1; [split; [reflexivity|exact Hd]|]. cbn [negb orb].
      rewrite rev_app_distr. split; [reflexivity|]. apply Forall_app. split; [exact Hd|]. constructor; [|constructor].
      split; [exact Hc|]. split; apply text_eqb_neq; assumption. }
  destruct E as [-> E]. exact (IH _ E).
Qed.
Lemma norm_abs dir steps : Forall name dir -> Forall path_name steps ->
  normpath (T "/" ++ join (T "/") (dir ++ steps)) = abs (walk dir steps).
Proof.
  intros Hd Hs. assert (Hds : Forall path_name (dir ++ steps)).
  { apply Forall_app. split; [|exact Hs]. eapply Forall_impl; [|exact Hd]. now intros c [Hc _]. }
  assert (N : forall w ws, join (T "/") (dir ++ steps) = w -> starts_with (T "/") w = ws -> ws = false).
  { intros w ws <- <-. destruct (dir ++ steps) as [|c l]; [reflexivity|]. apply Forall_inv in Hds. destruct Hds as [Hne Hin].
    destruct c as [|x c]; [congruence|]. assert (X : Ascii.eqb "/" x = false).
    { apply Ascii.eqb_neq. intros <-. apply Hin. now left. }
    destruct l; cbn [join app starts_with]; unfold T; cbn [list_ascii_of_string]; cbn [starts_with]; now rewrite X. }
  assert (N1 : starts_with (T "/") (join (T "/") (dir ++ steps)) = false) by exact (N _ _ eq_refl eq_refl).
  set (j := join (T "/") (dir ++ steps)) in *. change (T "/" ++ j) with ("/"%char :: j).
  assert (N2 : starts_with (T "//") ("/"%char :: j) = false) by exact N1.
  unfold normpath. change (starts_with (T "/") ("/"%char :: j)) with true. rewrite N2. cbn iota.
  change (negb (is_nil (T "/"))) with true.
  change (split_on "/" ("/"%char :: j)) with ([] :: split_on "/" j).
  cbn [fold_left andb]. change (norm_step true [] []) with (@nil text). unfold j. clear N N1 N2 j.
  assert (F : fold_left (norm_step true) (split_on "/" (join (T "/") (dir ++ steps))) [] = rev (walk dir steps)).
  { assert (W : forall d0, Forall name d0 -> walk d0 dir = d0 ++ dir).
    { clear - Hd. induction Hd as [|c dir Hc _ IH]; intros d0 H0; [cbn; now rewrite app_nil_r|]. cbn [walk fold_left].
      destruct (name_eqb c Hc) as (E1 & E2 & _). unfold step at 2. rewrite E1, E2. fold (walk (d0 ++ [c]) dir).
      rewrite IH; [now rewrite <- app_assoc|]. apply Forall_app. split; [exact H0|]. constructor; [exact Hc|constructor]. }
    destruct (dir ++ steps) as [|c l] eqn:E.
    - apply app_eq_nil in E. destruct E as [-> ->]. reflexivity.
    - rewrite split_join; [|discriminate|eapply Forall_impl; [|exact Hds]; now intros w [_ Hw]]. rewrite <- E, fold_left_app.
      assert (Hp : Forall path_name dir) by (eapply Forall_impl; [|exact Hd]; now intros w [Hw _]).
      pose proof (proj1 (norm_steps dir Hp [] ltac:(constructor))) as X. cbn [rev] in X. rewrite X.
      rewrite (W [] ltac:(constructor)). cbn [app]. now apply norm_steps. }
  change (norm_step (negb (is_nil (T "/")))) with (norm_step true). change (norm_step true [] []) with (@nil text).
  rewrite F, rev_involutive. reflexivity.
Qed.
Lemma norm_dir dir : Forall name dir -> normpath (abs dir) = abs dir.
Proof. intros H. pose proof (norm_abs dir [] H ltac:(constructor)) as E. rewrite app_nil_r in E. exact E. Qed.

Lemma join_snoc d : forall dir, dir <> [] -> join (T "/") (dir ++ [d]) = join (T "/") dir ++ T "/" ++ d.
Proof.
  intros dir. induction dir as [|c dir IH]; [congruence|]. intros _. destruct dir as [|e dir]; [reflexivity|].
  cbn [app] in *. change (join (T "/") (c :: e :: dir ++ [d])) with (c ++ T "/" ++ join (T "/") (e :: dir ++ [d])).
  rewrite IH by discriminate. change (join (T "/") (c :: e :: dir)) with (c ++ T "/" ++ join (T "/") (e :: dir)).
  now rewrite <- !app_assoc.
Qed.
Lemma join_app2 steps : forall dir, dir <> [] -> steps <> [] ->
  join (T "/") (dir ++ steps) = join (T "/") dir ++ T "/" ++ join (T "/") steps.
Proof.
  intros dir. induction dir as [|c dir IH]; [congruence|]. intros _ Hs. destruct dir as [|e dir].
  - destruct steps; [congruence|reflexivity].
  - cbn [app] in *. change (join (T "/") (c :: e :: dir ++ steps)) with (c ++ T "/" ++ join (T "/") (e :: dir ++ steps)).
    rewrite IH by (discriminate || assumption). change (join (T "/") (c :: e :: dir)) with (c ++ T "/" ++ join (T "/") (e :: dir)).
    now rewrite <- !app_assoc.
Qed.
Lemma rev_abs dir : Forall name dir -> dir <> [] -> exists c r, rev (abs dir) = c :: r /\ Ascii.eqb c "/" = false.
Proof.
  intros H Hne. destruct (exists_last Hne) as (l & d & ->). apply Forall_app in H. destruct H as [_ H]. apply Forall_inv in H.
  destruct H as [[Hd Hs] _]. assert (E : exists a, abs (l ++ [d]) = a ++ d).
  { unfold abs. destruct l as [|x l]; [now exists (T "/")|]. rewrite join_snoc by discriminate.
    exists (T "/" ++ join (T "/") (x :: l) ++ T "/"). now rewrite <- !app_assoc. }
  destruct E as [a ->]. rewrite rev_app_distr. destruct (rev d) as [|c r] eqn:E; [now apply rev_nil_iff in E|].
  exists c, (r ++ rev a). split; [reflexivity|]. apply Ascii.eqb_neq. intros ->. apply Hs. apply in_rev. rewrite E. now left.
Qed.
Lemma relative steps : steps <> [] -> Forall path_name steps -> starts_with (T "/") (join (T "/") steps) = false.
Proof.
  intros Hne H. destruct H as [|c l Hc _]; [congruence|]. destruct Hc as [Hn Hin]. destruct c as [|x c]; [congruence|].
  assert (X : Ascii.eqb "/" x = false) by (apply Ascii.eqb_neq; intros <-; apply Hin; now left).
  destruct l; cbn [join app]; unfold T; cbn [list_ascii_of_string starts_with]; now rewrite X.
Qed.
Lemma join_abs dir steps : Forall name dir -> steps <> [] -> Forall path_name steps ->
  path_join (abs dir) (join (T "/") steps) = T "/" ++ join (T "/") (dir ++ steps).
Proof.
  intros Hd Hne Hs. unfold path_join. rewrite relative by assumption. destruct dir as [|d dir].
  - reflexivity.
  - destruct (rev_abs (d :: dir) Hd ltac:(discriminate)) as (c & r & -> & ->). unfold abs.
    rewrite (join_app2 steps (d :: dir) ltac:(discriminate) Hne). now rewrite <- !app_assoc.
Qed.
Lemma abspath_relative dir steps : Forall name dir -> steps <> [] -> Forall path_name steps ->
  abspath (abs dir) (join (T "/") steps) = abs (walk dir steps).
Proof.
  intros Hd Hne Hs. unfold abspath. rewrite relative by assumption. rewrite join_abs by assumption. now apply norm_abs.
Qed.
Lemma abspath_absolute cwd dir : Forall name dir -> abspath cwd (abs dir) = abs dir.
Proof. intros Hd. unfold abspath. change (starts_with (T "/") (abs dir)) with true. cbn iota. now apply norm_dir. Qed.
Lemma dirname_abs dir d : Forall name dir -> name d -> dirname (abs (dir ++ [d])) = abs dir.
Proof.
  intros Hd [[Hn Hs] _]. destruct dir as [|c dir].
  - unfold dirname. change (abs ([] ++ [d])) with ([] ++ T "/" ++ d). rewrite basename_app by exact Hs.
    replace (length ([] ++ T "/" ++ d) - length d) with (length (T "/"))
      by (change (length ([] ++ T "/" ++ d)) with (S (length d)); rewrite Nat.sub_succ_l by lia; now rewrite Nat.sub_diag).
    change ([] ++ T "/" ++ d) with (T "/" ++ d). rewrite firstn_app_len. reflexivity.
  - destruct (exists_last (l := c :: dir) ltac:(discriminate)) as (l & b & E). rewrite E in *.
    apply Forall_app in Hd. destruct Hd as [Hl Hb]. apply Forall_inv in Hb. unfold abs.
    rewrite join_snoc by (destruct l; discriminate).
    destruct l as [|x l].
    + change (T "/" ++ join (T "/") ([] ++ [b]) ++ T "/" ++ d) with ([] ++ T "/" ++ b ++ T "/" ++ d).
      rewrite dirname_app; [reflexivity|apply Hb|exact Hs].
    + rewrite join_snoc by discriminate.
      replace (T "/" ++ (join (T "/") (x :: l) ++ T "/" ++ b) ++ T "/" ++ d)
        with ((T "/" ++ join (T "/") (x :: l)) ++ T "/" ++ b ++ T "/" ++ d) by now rewrite <- !app_assoc.
      rewrite dirname_app; [now rewrite <- !app_assoc|apply Hb|exact Hs].
Qed.
Lemma walk_names steps dir : Forall path_name steps -> Forall name dir -> Forall name (walk dir steps).
Proof. intros Hs Hd. now apply norm_steps. Qed.
Lemma walk_snoc steps dir c : name c -> walk dir (steps ++ [c]) = walk dir steps ++ [c].
Proof.
  intros Hc. unfold walk. rewrite fold_left_app. cbn [fold_left]. unfold step at 1. destruct (name_eqb c Hc) as (-> & -> & _).
  reflexivity.
Qed.

(** * C86: which tree it is *)

(** The script is given by a path relative to the working directory (possibly with
    . and ..) or by an absolute path. *)
Definition started (p : process) (src : list text) (script : text) : Prop :=
  exists dir, Forall name dir /\ cwd p = abs dir /\ name script /\ Forall name src
  /\ (argv0 p = abs (src ++ [script])
      \/ exists steps, Forall path_name steps /\ argv0 p = join (T "/") (steps ++ [script]) /\ src = walk dir steps).

Lemma source_dir_of p src script : started p src script -> source_dir p = abs src.
Proof.
  intros (dir & Hd & Ec & Hs & Hsrc & H). unfold source_dir. rewrite Ec.
  destruct H as [E|(steps & Hst & E & ->)]; rewrite E.
  - rewrite abspath_absolute by (apply Forall_app; auto). now apply dirname_abs.
  - rewrite abspath_relative; [|exact Hd|now destruct steps|].
    + rewrite walk_snoc by exact Hs. apply dirname_abs; [now apply walk_names|exact Hs].
    + apply Forall_app. split; [exact Hst|]. constructor; [apply Hs|constructor].
Qed.
Definition file_in (dir : list text) (f : text) : text := abs (dir ++ [f]).
Lemma join_file dir f : Forall name dir -> name f -> path_join (abs dir) f = file_in dir f.
Proof.
  intros Hd Hf. exact (join_abs dir [f] Hd ltac:(discriminate) ltac:(constructor; [apply Hf|constructor])).
Qed.
Lemma known_name f : ~ In "/"%char f -> f <> [] -> f <> T "." -> f <> T ".." -> name f.
Proof. repeat split; assumption. Qed.
Ltac known := apply known_name; [cbn; intuition discriminate|discriminate|discriminate|discriminate].

Lemma abspath_file dir f : Forall name dir -> name f -> abspath (abs dir) f = file_in dir f.
Proof.
  intros Hd Hf. pose proof (abspath_relative dir [f] Hd ltac:(discriminate) ltac:(constructor; [apply Hf|constructor])) as E.
  change (join (T "/") [f]) with f in E. rewrite E. unfold file_in. f_equal. exact (walk_snoc [] dir f Hf).
Qed.

(** Characters that end a line for str.splitlines, and ends of lines: one such
    character, or a carriage return and a newline. *)
Definition breaks : list ascii := map ascii_of_nat [10; 11; 12; 13; 28; 29; 30; 133].
Definition unbroken (c : ascii) : Prop := ~ In c breaks.
Definition line_end (b rest : text) : Prop :=
  b = [carriage_return; newline]
  \/ exists c, b = [c] /\ ~ unbroken c /\ (c = carriage_return -> forall r, rest <> newline :: r).
(** The lines of a text: each ends with a break, the last one perhaps not. *)
Inductive has_lines : text -> list text -> Prop :=
| no_lines : has_lines [] []
| last_line l : l <> [] -> Forall unbroken l -> has_lines l [l]
| next_line l b r ls : Forall unbroken l -> line_end b r -> has_lines r ls -> has_lines (l ++ b ++ r) (l :: ls).

Lemma unbroken_break c : unbroken c <-> is_break c = false.
Proof.
  unfold unbroken, breaks, is_break. destruct c as [[] [] [] [] [] [] [] []]; vm_compute; intuition discriminate.
Qed.
Lemma splitlines_open l r : Forall unbroken l -> l <> [] ->
  splitlines (l ++ r) = match splitlines r with [] => [l] | x :: ls => (l ++ x) :: ls end.
Proof.
  induction 1 as [|c l Hc Hl IH]; [congruence|]. intros _. cbn [app splitlines]. apply unbroken_break in Hc. rewrite Hc.
  destruct l as [|d l].
  - cbn [app]. now destruct (splitlines r).
  - rewrite IH by discriminate. now destruct (splitlines r).
Qed.
Lemma splitlines_end b r : line_end b r -> splitlines (b ++ r) = [] :: splitlines r.
Proof.
  intros [->|(c & -> & Hc & Hn)]; [reflexivity|]. cbn [app splitlines].
  assert (is_break c = true) as ->.
  { destruct (is_break c) eqn:E; [reflexivity|]. apply unbroken_break in E. contradiction. }
  f_equal. destruct r as [|d r]; [reflexivity|]. destruct (Ascii.eqb_spec c carriage_return) as [->|]; [|reflexivity].
  destruct (Ascii.eqb_spec d newline) as [->|]; [|reflexivity]. exfalso. apply (Hn eq_refl r). reflexivity.
Qed.
Lemma splitlines_lines s ls : has_lines s ls -> splitlines s = ls.
Proof.
  induction 1 as [|l Hne Hl|l b r ls Hl Hb Hr IH]; [reflexivity| |].
  - rewrite <- (app_nil_r l) at 1. now rewrite splitlines_open.
  - destruct l as [|c l]; [cbn [app]; now rewrite splitlines_end, IH|].
    rewrite splitlines_open by (exact Hl || discriminate). rewrite splitlines_end, IH by exact Hb. now rewrite app_nil_r.
Qed.
Lemma has_lines_all s : exists ls, has_lines s ls.
Proof.
  assert (G : forall n s, length s <= n -> exists ls, has_lines s ls).
  { induction n as [|n IH]; intros [|c r] Hn; cbn in Hn; try lia; try (exists []; constructor).
    destruct (is_break c) eqn:E.
    - assert (Hc : ~ unbroken c) by (rewrite unbroken_break; congruence).
      destruct r as [|d r].
      + exists [[]]. apply (next_line [] [c] [] []); [constructor| |constructor].
        right. exists c. split; [reflexivity|]. split; [exact Hc|]. intros _ r; discriminate.
      + destruct (Ascii.eqb_spec c carriage_return) as [->|Hcr]; [destruct (Ascii.eqb_spec d newline) as [->|Hd]|].
        * destruct (IH r) as (ls & H); [cbn in Hn; lia|]. exists ([] :: ls).
          apply (next_line [] [carriage_return; newline] r ls); [constructor|now left|exact H].
        * destruct (IH (d :: r)) as (ls & H); [lia|]. exists ([] :: ls).
          apply (next_line [] [carriage_return] (d :: r) ls); [constructor| |exact H].
          right. exists carriage_return. split; [reflexivity|]. split; [exact Hc|]. intros _ r'. congruence.
        * destruct (IH (d :: r)) as (ls & H); [lia|]. exists ([] :: ls).
          apply (next_line [] [c] (d :: r) ls); [constructor| |exact H].
          right. exists c. split; [reflexivity|]. split; [exact Hc|]. congruence.
    - apply unbroken_break in E. destruct (IH r) as (ls & H); [lia|]. inversion H as [|l Hne Hl|l b r' ls' Hl Hb Hr]; subst.
      + exists [[c]]. apply last_line; [discriminate|]. constructor; [exact E|constructor].
      + exists [c :: r]. apply last_line; [discriminate|]. now constructor.
      + exists ((c :: l) :: ls'). apply (next_line (c :: l) b r' ls'); [now constructor|exact Hb|exact Hr]. }
  exact (G _ s (le_n _)).
Qed.

(** The requirements are the lines of requirements.txt. *)
Theorem C86_requirements s ls : splitlines s = ls <-> has_lines s ls.
Proof.
  split; [|apply splitlines_lines]. intros <-. destruct (has_lines_all s) as (ls & H). now rewrite (splitlines_lines _ _ H).
Qed.
Print Assumptions C86_requirements.
Example C86_requirements_case : has_lines (T "numpy" ++ newline :: T "scipy>1" ++ [newline]) [T "numpy"; T "scipy>1"]
  /\ splitlines (universal (T "a" ++ carriage_return :: newline :: newline :: T "b")) = [T "a"; []; T "b"].
Proof. split; [apply C86_requirements|]; vm_compute; reflexivity. Qed.

(** setup() receives the version of the tree that contains setup.py and the
    requirements listed there; the working directory and the path to the script
    make no difference. *)
Theorem C86_own_tree (conda : bool) d setup p src script v j req setup_req tests_req :
  started p src script -> d_file d (file_in src (T "setup.py")) <> None ->
  (if conda then (req, setup_req, tests_req) = ([], [], [])
   else exists c, d_file d (file_in src (T "requirements.txt")) = Some c /\ has_lines (universal c) req
        /\ setup_req = [T "pytest-runner"] /\ tests_req = [T "pytest"]) ->
  project_versions d (abs src) = POk v -> dict_get v (T "version") = VOk j ->
  forall p2 r, setup (Metadata j req setup_req tests_req) (Process (abs src) (abs src :: sys_path p) (argv0 p)) = (p2, r) ->
  forall first path, sys_path p2 = first :: path ->
  setup_package conda d setup p = (Process (cwd p) path (argv0 p2), r).
Proof.
  intros Hs Hf Hq Hv Hj p2 r Ep first path Epath. pose proof (source_dir_of _ _ _ Hs) as Esrc.
  assert (Hsrc : Forall name src) by (destruct Hs as (? & _ & _ & _ & H & _); exact H).
  unfold setup_package. rewrite Esrc. set (p1 := Process (abs src) (abs src :: sys_path p) (argv0 p)) in *.
  assert (Er : get_root d p1 = POk (abs src)).
  { unfold get_root, p1. cbn [cwd]. rewrite abspath_absolute by exact Hsrc. unfold is_project, exists_file.
    rewrite join_file by first [exact Hsrc|known]. destruct (d_file d (file_in src (T "setup.py"))); [reflexivity|congruence]. }
  assert (Em : setup_metadata conda d p1 = POk (Metadata j req setup_req tests_req)).
  { unfold setup_metadata, versioneer_get_version, versioneer_get_versions. rewrite Er. cbn [pbind]. rewrite Hv. cbn [pbind].
    rewrite Hj. cbn [computing pbind]. destruct conda.
    - injection Hq as -> -> ->. reflexivity.
    - destruct Hq as (c & Hc & Hl & -> & ->). apply C86_requirements in Hl. unfold p1. cbn [cwd].
      rewrite abspath_file by first [exact Hsrc|known]. rewrite Hc, Hl. reflexivity. }
  rewrite Em, Ep, Epath. reflexivity.
Qed.
Print Assumptions C86_own_tree.

(** The path from which the script was started does not matter. *)
Theorem C86_anywhere conda d p p' src script script' :
  started p src script -> started p' src script' ->
  d_file d (file_in src (T "setup.py")) <> None ->
  forall argv0' path path',
  setup_metadata conda d (Process (source_dir p) path (argv0 p))
  = setup_metadata conda d (Process (source_dir p') path' argv0').
Proof.
  intros H H' Hf a path path'. rewrite (source_dir_of _ _ _ H), (source_dir_of _ _ _ H').
  assert (Hsrc : Forall name src) by (destruct H as (? & _ & _ & _ & X & _); exact X).
  unfold setup_metadata, versioneer_get_version, versioneer_get_versions, get_root. cbn [cwd argv0].
  rewrite abspath_absolute by exact Hsrc. unfold is_project, exists_file.
  rewrite join_file by first [exact Hsrc|known]. destruct (d_file d (file_in src (T "setup.py"))); [reflexivity|congruence].
Qed.
Print Assumptions C86_anywhere.

(** ** The version is that of the package *)

(** With the setup.cfg of the repository, setup.py passes the version that the
    package in the same tree reports. *)
Theorem C86_same_version d dir d0 pre post refnames full date :
  Forall name dir -> name d0 -> let src := dir ++ [d0] in
  d_file d (file_in src (T "setup.cfg")) = Some repo_setup_cfg ->
  d_file d (abs (src ++ [T "gcs"; T "_version.py"])) = Some (version_source pre post refnames full date) ->
  Forall (fun l => ~ In newline l /\ other_line l) (pre ++ post) ->
  literal refnames -> literal full -> literal date ->
  (forall a b, version_source pre post refnames full date <> a ++ T "version_json = '''" ++ b) ->
  project_versions d (abs src) =
  computing (vbind (get_versions_at [] (Keywords (Some refnames) (Some full) (Some date))
                      (Some (abs (src ++ [T "gcs"; T "_version.py"]))) (d_git d)) (fun v => VOk (dict_of v))).
Proof.
  intros Hd Hd0 src Hcfg Hfile Hl Hr Hf Hdt Hno.
  assert (Hsrc : Forall name src) by (apply Forall_app; auto).
  unfold project_versions. rewrite join_file by first [exact Hsrc|known]. rewrite Hcfg, repo_config. cbn [pbind].
  unfold tree_versions. cbn [c_VCS c_source c_tag_prefix c_style c_parentdir_prefix].
  change (text_eqb (T "git") (T "git")) with true. cbn [negb].
  assert (Ej : path_join (abs src) cfg_versionfile_source = abs (src ++ [T "gcs"; T "_version.py"])).
  { change cfg_versionfile_source with (join (T "/") [T "gcs"; T "_version.py"]). apply join_abs; [exact Hsrc|discriminate|].
    repeat constructor; (discriminate || (cbn; intuition discriminate)). }
  rewrite Ej, Hfile.
  assert (Es : source_root (abs (src ++ [T "gcs"; T "_version.py"])) = abs src).
  { unfold source_root. change (split_on "/" cfg_versionfile_source) with [T "gcs"; T "_version.py"]. cbn [fold_left].
    replace (src ++ [T "gcs"; T "_version.py"]) with ((src ++ [T "gcs"]) ++ [T "_version.py"]) by now rewrite <- app_assoc.
    rewrite dirname_abs; [|apply Forall_app; split; [exact Hsrc|constructor; [known|constructor]]|known].
    apply dirname_abs; [exact Hsrc|known]. }
  unfold get_versions_at. rewrite Es.
  pose proof (C74_same_version pre post refnames full date (abs (src ++ [T "gcs"; T "_version.py"])) (d_git d (abs src))
    Hl Hr Hf Hdt Hno) as E.
  unfold get_versions in E. change cfg_parentdir_prefix with (@nil ascii) in E. rewrite <- E. unfold setup_get_versions. reflexivity.
Qed.
Print Assumptions C86_same_version.

(** ** What is left behind *)

(** If setup() is reached, and does not remove the entry put in front of sys.path,
    the working directory is the old one and the entry is gone, also when setup()
    raises. *)
Theorem C86_restored_partial conda d setup p m :
  setup_metadata conda d (Process (source_dir p) (source_dir p :: sys_path p) (argv0 p)) = POk m ->
  (forall m q p2 r, setup m q = (p2, r) -> sys_path p2 = sys_path q) ->
  forall p' r, setup_package conda d setup p = (p', r) -> cwd p' = cwd p /\ sys_path p' = sys_path p.
Proof.
  intros Em Hs p' r E. unfold setup_package in E. rewrite Em in E.
  destruct (setup m _) as [p2 r2] eqn:Es. pose proof (Hs _ _ _ _ Es) as X. cbn [sys_path] in X. rewrite X in E.
  injection E as <- <-. split; reflexivity.
Qed.
Print Assumptions C86_restored_partial.

(** Otherwise they are not: the repository has no requirements.txt, so that
    without CONDA_BUILD setup.py fails in the directory it has changed to. *)
Theorem C86_restored_refuted d setup p src script :
  started p src script -> d_file d (file_in src (T "requirements.txt")) = None ->
  setup_package false d setup p = (Process (abs src) (abs src :: sys_path p) (argv0 p), PRaise NoSuchFile).
Proof.
  intros Hs Hn. assert (Hsrc : Forall name src) by (destruct Hs as (? & _ & _ & _ & X & _); exact X).
  unfold setup_package, setup_metadata. rewrite (source_dir_of _ _ _ Hs). cbn [cwd].
  rewrite abspath_file by first [exact Hsrc|known]. rewrite Hn. reflexivity.
Qed.
Print Assumptions C86_restored_refuted.

(** Any failure before setup(): the process stays in the directory of setup.py. *)
Theorem C86_failed conda d setup p src script e :
  started p src script ->
  setup_metadata conda d (Process (abs src) (abs src :: sys_path p) (argv0 p)) = PRaise e ->
  setup_package conda d setup p = (Process (abs src) (abs src :: sys_path p) (argv0 p), PRaise e).
Proof. intros Hs He. unfold setup_package. rewrite (source_dir_of _ _ _ Hs), He. reflexivity. Qed.
Print Assumptions C86_failed.

(** If setup() leaves nothing on the search path, removing the entry of the
    directory of setup.py fails, whatever setup() returned, and the process stays
    in the directory setup() left it in. *)
Theorem C86_emptied conda d setup p m p2 r :
  setup_metadata conda d (Process (source_dir p) (source_dir p :: sys_path p) (argv0 p)) = POk m ->
  setup m (Process (source_dir p) (source_dir p :: sys_path p) (argv0 p)) = (p2, r) -> sys_path p2 = [] ->
  setup_package conda d setup p = (p2, PRaise PIndexError).
Proof. intros Em Es E0. unfold setup_package. rewrite Em, Es, E0. reflexivity. Qed.
Print Assumptions C86_emptied.

(** ** MANIFEST *)

(** The only file that the script removes, apart from what setup() does, is
    MANIFEST in the directory it was started from. *)
Theorem C86_manifest env d setup p dir : Forall name dir -> cwd p = abs dir ->
  forall d' out, setup_py env d setup p = (d', out) ->
  d_file d' (file_in dir (T "MANIFEST")) = None
  /\ (forall f, f <> file_in dir (T "MANIFEST") -> d_file d' f = d_file d f)
  /\ (forall f, d_git d' f = d_git d f).
Proof.
  intros Hd Hc d' out E.
  assert (Ed : d' = remove d (file_in dir (T "MANIFEST"))).
  { unfold setup_py in E. rewrite Hc, abspath_file in E by first [exact Hd|known].
    destruct (conda_build env); now injection E as <- _. }
  subst d'. cbn [remove d_file d_git]. rewrite text_eqb_refl. split; [reflexivity|]. split; [|reflexivity].
  intros f Hf. assert (X : text_eqb f (file_in dir (T "MANIFEST")) = false) by now apply text_eqb_neq. now rewrite X.
Qed.
Print Assumptions C86_manifest.

(** So it removes a file outside its tree when it is started from elsewhere. *)
Theorem C86_manifest_outside_refuted :
  exists p src script d setup f,
    started p src script /\ (forall x, f <> abs (src ++ x)) /\ d_file d f <> None
    /\ d_file (fst (setup_py None d setup p)) f = None.
Proof.
  exists (Process (abs [T "home"]) [] (abs [T "src"; T "gcs"; T "setup.py"])), [T "src"; T "gcs"], (T "setup.py").
  exists (Disk (fun f => if text_eqb f (T "/home/MANIFEST") then Some (T "mine") else None) (fun _ => Git None None None None None)).
  exists (fun _ p => (p, POk tt)), (T "/home/MANIFEST"). split; [|split; [|split]].
  - exists [T "home"]. split; [constructor; [known|constructor]|]. split; [reflexivity|]. split; [known|].
    split; [repeat (constructor; [known|]); constructor|]. now left.
  - intros x. destruct x; discriminate.
  - discriminate.
  - vm_compute. reflexivity.
Qed.
Print Assumptions C86_manifest_outside_refuted.


(** ** The project directory *)

(** ** CONDA_BUILD *)

(** A number as int() reads it: blanks around it, a sign, decimal digits. *)
Definition number (t ds : text) : Prop :=
  exists a sign b, t = a ++ sign ++ ds ++ b /\ Forall (fun c => is_space c = true) a /\ Forall (fun c => is_space c = true) b
  /\ (sign = [] \/ sign = T "-" \/ sign = T "+") /\ ds <> [] /\ Forall (fun c => is_digit c = true) ds.
Lemma uint_digit c d : is_digit c = true -> exists e, uint_of_char c (Some d) = Some e
  /\ (N.of_uint e = 0%N <-> c = "0"%char /\ N.of_uint d = 0%N).
Proof.
  intros Hc. destruct c as [[] [] [] [] [] [] [] []]; vm_compute in Hc; try discriminate; cbn [uint_of_char];
    eexists; (split; [reflexivity|]); cbn [N.of_uint Pos.of_uint];
    (split; [intros H; try discriminate H; now split|intros [H1 H2]; try discriminate H1; exact H2]).
Qed.
Lemma digits_value ds : ds <> [] -> Forall (fun c => is_digit c = true) ds -> exists n, nat_of_text ds = Some n
  /\ (n = 0%N <-> Forall (fun c => c = "0"%char) ds).
Proof.
  intros Hne H. assert (G : exists u, NilEmpty.uint_of_string (string_of_list_ascii ds) = Some u
      /\ (N.of_uint u = 0%N <-> Forall (fun c => c = "0"%char) ds)).
  { clear Hne. induction H as [|c ds Hc _ (u & E & I)]; cbn [string_of_list_ascii NilEmpty.uint_of_string].
    - eexists. split; [reflexivity|]. split; [constructor|reflexivity].
    - rewrite E. destruct (uint_digit c u Hc) as (e & Ee & Ie). exists e. split; [exact Ee|]. rewrite Ie, I.
      split; [intros [-> X]; now constructor|intros X; inversion X; auto]. }
  destruct G as (u & E & I). exists (N.of_uint u). split; [|exact I]. unfold nat_of_text. destruct ds; [congruence|]. now rewrite E.
Qed.
Lemma uint_digits s u : NilEmpty.uint_of_string (string_of_list_ascii s) = Some u -> Forall (fun c => is_digit c = true) s.
Proof.
  revert u. induction s as [|c s IH]; intros u; cbn [string_of_list_ascii NilEmpty.uint_of_string]; [constructor|].
  intros H. destruct (NilEmpty.uint_of_string (string_of_list_ascii s)) as [v|] eqn:E; [|destruct c as [[] [] [] [] [] [] [] []]; discriminate].
  constructor; [|now apply (IH v)]. destruct c as [[] [] [] [] [] [] [] []]; try discriminate H; reflexivity.
Qed.
Lemma digit_no_space c : is_digit c = true -> is_space c = false /\ c <> "-"%char /\ c <> "+"%char.
Proof. intros H. destruct c as [[] [] [] [] [] [] [] []]; vm_compute in H; try discriminate; repeat split; discriminate. Qed.

Lemma number_int t : (forall ds, number t ds -> exists n, int_of_text t = VOk n /\ (n = 0%Z <-> Forall (fun c => c = "0"%char) ds))
  /\ ((forall ds, ~ number t ds) -> int_of_text t = VRaise VValueError).
Proof.
  split.
  - intros ds (a & sign & b & -> & Ha & Hb & Hsign & Hne & Hds). unfold int_of_text.
    assert (U : unpadded is_space (sign ++ ds)).
    { destruct ds as [|c ds] using rev_ind; [congruence|]. clear IHds. apply Forall_app in Hds as Hds'. destruct Hds' as [_ Hl].
      inversion Hl as [|? ? Hc _]; subst. split.
      - destruct sign as [|x sign]; [|destruct Hsign as [X|[X|X]]; inversion X; reflexivity].
        cbn [app]. destruct (ds ++ [c]) as [|y l] eqn:E; [exact I|]. inversion Hds; subst. now apply digit_no_space.
      - rewrite app_assoc, rev_app_distr. cbn [rev app]. now apply digit_no_space. }
    rewrite (app_assoc sign). unfold strip. rewrite strip_by_pad by assumption.
    destruct (digits_value ds Hne Hds) as (n & En & In).
    destruct Hsign as [->|[->| ->]]; cbn [T list_ascii_of_string app].
    + destruct ds as [|c ds]; [congruence|]. inversion Hds as [|? ? Hc _]; subst. destruct (digit_no_space c Hc) as (_ & N1 & N2).
      destruct (Ascii.eqb c "-") eqn:E1; [apply Ascii.eqb_eq in E1; congruence|].
      destruct (Ascii.eqb c "+") eqn:E2; [apply Ascii.eqb_eq in E2; congruence|]. rewrite En. eexists. split; [reflexivity|]. rewrite <- In. lia.
    + cbn [Ascii.eqb Bool.eqb]. rewrite En. eexists. split; [reflexivity|]. rewrite <- In. lia.
    + cbn [Ascii.eqb Bool.eqb]. rewrite En. eexists. split; [reflexivity|]. rewrite <- In. lia.
  - intros H. unfold int_of_text. destruct (strip_split is_space t) as (a & b & E & Ha & Hb & _).
    change (strip_by is_space t) with (strip t) in E. destruct (strip t) as [|c r] eqn:Es; [reflexivity|].
    assert (G : forall sign ds n, c :: r = sign ++ ds -> (sign = [] \/ sign = T "-" \/ sign = T "+") -> nat_of_text ds = Some n -> False).
    { intros sign ds n E1 E2 E3. apply (H ds). exists a, sign, b. rewrite E1 in E. rewrite <- app_assoc in E.
      split; [exact E|]. split; [exact Ha|]. split; [exact Hb|]. split; [exact E2|]. split.
      - intros ->. discriminate E3.
      - unfold nat_of_text in E3. destruct ds; [discriminate|]. destruct (NilEmpty.uint_of_string _) as [u|] eqn:Eu; [|discriminate].
        exact (uint_digits _ u Eu). }
    destruct (Ascii.eqb c "-") eqn:E1; [|destruct (Ascii.eqb c "+") eqn:E2].
    + apply Ascii.eqb_eq in E1. subst c. destruct (nat_of_text r) as [n|] eqn:En; [|reflexivity]. exfalso. apply (G (T "-") r n); auto.
    + apply Ascii.eqb_eq in E2. subst c. destruct (nat_of_text r) as [n|] eqn:En; [|reflexivity]. exfalso. apply (G (T "+") r n); auto.
    + destruct (nat_of_text (c :: r)) as [n|] eqn:En; [|reflexivity]. exfalso. apply (G [] (c :: r) n); auto.
Qed.

(** The requirements are passed unless CONDA_BUILD is a number other than zero;
    if it is not a number setup.py stops before it changes directory. *)
Theorem C86_conda env d setup p :
  let out := snd (setup_py env d setup p) in
  let d' := fst (setup_py env d setup p) in
  (env = None -> out = setup_package false d' setup p)
  /\ (forall t ds, env = Some t -> number t ds -> Forall (fun c => c = "0"%char) ds -> out = setup_package false d' setup p)
  /\ (forall t ds, env = Some t -> number t ds -> ~ Forall (fun c => c = "0"%char) ds -> out = setup_package true d' setup p)
  /\ (forall t, env = Some t -> (forall ds, ~ number t ds) -> out = (p, PRaise PValueError)).
Proof.
  cbn zeta. unfold setup_py, conda_build. repeat split.
  - intros ->. reflexivity.
  - intros t ds -> Hn Hz. destruct (number_int t) as [H _]. destruct (H ds Hn) as (n & -> & I). apply I in Hz. subst n. reflexivity.
  - intros t ds -> Hn Hz. destruct (number_int t) as [H _]. destruct (H ds Hn) as (n & -> & I).
    destruct (n =? 0)%Z eqn:E; [apply Z.eqb_eq in E; tauto|]. reflexivity.
  - intros t -> Hn. destruct (number_int t) as [_ H]. rewrite (H Hn). reflexivity.
Qed.
Print Assumptions C86_conda.
Example C86_conda_case : number (T " 1") (T "1") /\ number (T "-00") (T "00") /\ conda_build (Some (T " 1")) = POk true
  /\ conda_build (Some (T "-00")) = POk false /\ conda_build (Some (T "yes")) = PRaise PValueError.
Proof.
  split; [|split; [|vm_compute; auto]].
  - exists [" "%char], [], []. repeat split; try discriminate; try (right; left; reflexivity); repeat constructor.
  - exists [], (T "-"), []. repeat split; try discriminate; try (right; left; reflexivity); repeat constructor.
Qed.

(** versioneer works on the working directory if setup.py or versioneer.py is
    there, and otherwise on the directory of the script; it fails if neither is a
    project. *)
Definition project_in (d : disk) (dir : list text) : Prop :=
  d_file d (file_in dir (T "setup.py")) <> None \/ d_file d (file_in dir (T "versioneer.py")) <> None.
Theorem C86_root d p dir src script : Forall name dir -> cwd p = abs dir -> started p src script ->
  (project_in d dir -> get_root d p = POk (abs dir))
  /\ (~ project_in d dir -> project_in d src -> get_root d p = POk (abs src))
  /\ (~ project_in d dir -> ~ project_in d src -> get_root d p = PRaise BadRoot).
Proof.
  intros Hd Hc Hs. assert (Hsrc : Forall name src) by (destruct Hs as (? & _ & _ & _ & X & _); exact X).
  assert (P : forall x, Forall name x -> is_project d (abs x) = true <-> project_in d x).
  { intros x Hx. unfold is_project, exists_file, project_in. rewrite !join_file by first [exact Hx|known].
    rewrite orb_true_iff.
    destruct (d_file d (file_in x (T "setup.py"))), (d_file d (file_in x (T "versioneer.py"))); intuition congruence. }
  pose proof (source_dir_of _ _ _ Hs) as Es. unfold source_dir in Es. unfold get_root. rewrite Es, Hc.
  rewrite abspath_absolute by exact Hd. pose proof (P dir Hd) as P1. pose proof (P src Hsrc) as P2.
  destruct (is_project d (abs dir)), (is_project d (abs src)); intuition congruence.
Qed.
Print Assumptions C86_root.

(** os.path.abspath leaves one way of writing a path: doubled slashes inside it and
    slashes at its end mean nothing, three or more at its front are one; two stay
    two, as POSIX has it. *)
Definition nonempty (w : text) : bool := negb (is_nil w).
Theorem C86_slashes cwd n ws : Forall (fun w => ~ In "/"%char w) ws -> hd_error ws <> Some [] ->
  abspath cwd (repeat "/"%char (S n) ++ join (T "/") ws)
  = (if Nat.eqb n 1 then T "//" else T "/") ++ join (T "/") (walk [] (filter nonempty ws)).
Proof.
  intros Hw Hh. unfold abspath. change (starts_with (T "/") (repeat "/"%char (S n) ++ join (T "/") ws)) with true. cbn iota.
  set (j := join (T "/") ws).
  assert (N : starts_with (T "/") j = false).
  { subst j. destruct ws as [|w l]; [reflexivity|]. destruct w as [|x c]; [now destruct Hh|]. apply Forall_inv in Hw.
    assert (X : Ascii.eqb "/" x = false) by (apply Ascii.eqb_neq; intros <-; apply Hw; now left).
    destruct l; cbn [join app starts_with]; unfold T; cbn [list_ascii_of_string]; cbn [starts_with]; now rewrite X. }
  assert (S2 : starts_with (T "//") (repeat "/"%char (S n) ++ j) && negb (starts_with (T "///") (repeat "/"%char (S n) ++ j)) = Nat.eqb n 1).
  { destruct n as [|[|[|n]]]; try reflexivity.
    - change (starts_with (T "/") j && negb (starts_with (T "//") j) = false). now rewrite N.
    - change (negb (starts_with (T "/") j) = true). now rewrite N. }
  unfold normpath. change (repeat "/"%char (S n) ++ j) with ("/"%char :: repeat "/"%char n ++ j) at 1. cbn iota.
  change (starts_with (T "/") (repeat "/"%char (S n) ++ j)) with true. rewrite S2. cbn iota.
  assert (F : forall b, fold_left (norm_step b) (split_on "/" (repeat "/"%char (S n) ++ j)) [] = fold_left (norm_step b) (split_on "/" j) []).
  { intros b. clear S2. induction (S n) as [|m IH]; [reflexivity|]. cbn [repeat app].
    change (split_on "/" ("/"%char :: repeat "/"%char m ++ j)) with ([] :: split_on "/" (repeat "/"%char m ++ j)). exact IH. }
  assert (G : fold_left (norm_step true) (split_on "/" j) [] = rev (walk [] (filter nonempty ws))).
  { subst j. assert (K : forall l d, fold_left (norm_step true) l d = fold_left (norm_step true) (filter nonempty l) d).
    { clear. induction l as [|w l IH]; intros d; [reflexivity|]. cbn [filter fold_left]. destruct w as [|x w]; [exact (IH d)|].
      cbn [nonempty is_nil negb fold_left]. apply IH. }
    rewrite K. destruct ws as [|w l] eqn:E; [reflexivity|]. rewrite <- E in *. rewrite split_join; [|rewrite E; discriminate|assumption].
    assert (P : Forall path_name (filter nonempty ws)).
    { apply Forall_forall. intros x Hx. apply filter_In in Hx. destruct Hx as [Hx Hn]. rewrite Forall_forall in Hw.
      split; [destruct x; [discriminate Hn|discriminate]|now apply Hw]. }
    exact (proj1 (norm_steps _ P [] ltac:(constructor))). }
  destruct (Nat.eqb n 1); cbn [is_nil negb T list_ascii_of_string]; rewrite F, G, rev_involutive; reflexivity.
Qed.
Print Assumptions C86_slashes.
Example C86_slashes_case : abspath (T "/tmp") (T "///src//gcs/../gcs/") = T "/src/gcs"
  /\ T "///src//gcs/../gcs/" = repeat "/"%char 3 ++ join (T "/") [T "src"; []; T "gcs"; T ".."; T "gcs"; []].
Proof. split; reflexivity. Qed.

(** A tree in /src/gcs, and setup.py started as ../src/./gcs/setup.py from /tmp. *)
Definition case_disk : disk :=
  Disk (fun f => lookup f [(T "/src/gcs/setup.py", T "import versioneer"); (T "/src/gcs/setup.cfg", repo_setup_cfg);
                           (T "/src/gcs/requirements.txt", T "numpy");
                           (T "/src/gcs/gcs/_version.py", version_source [] [] (T " (tag: v0.1)") (T "abc") (T "today"))])
       (fun _ => Git None None None None None).
Definition case_process : process :=
  Process (abs [T "tmp"]) [T "/lib"] (join (T "/") ([T ".."; T "src"; T "."; T "gcs"] ++ [T "setup.py"])).
Example C86_case :
  started case_process [T "src"; T "gcs"] (T "setup.py")
  /\ d_file case_disk (file_in [T "src"; T "gcs"] (T "setup.py")) <> None
  /\ (exists v, project_versions case_disk (abs [T "src"; T "gcs"]) = POk v /\ dict_get v (T "version") = VOk (JText (T "0.1")))
  /\ setup_package false case_disk (fun m p => (p, if match m_version m with JText t => text_eqb t (T "0.1") | _ => false end
                                                    then PRaise (Other 7) else POk tt)) case_process
     = (case_process, PRaise (Other 7)).
Proof.
  split.
  { exists [T "tmp"]. split; [constructor; [known|constructor]|]. split; [reflexivity|]. split; [known|].
    split; [repeat (constructor; [known|]); constructor|]. right. exists [T ".."; T "src"; T "."; T "gcs"].
    split; [|split; reflexivity]. repeat constructor; (discriminate || (cbn; intuition discriminate)). }
  split; [discriminate|]. split; [eexists; split; vm_compute; reflexivity|]. vm_compute. reflexivity.
Qed.

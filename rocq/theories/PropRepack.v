(** C98: the version of a chain of distributions. *)
From Coq Require Import String Ascii ZArith NArith Bool Lia List.
Import ListNotations.
From Verif Require Import Version VersionFacts Versioneer PropVersion PropDist PropImport Build PropBuild PropCrash.
Open Scope list_scope.

(** Which commands are versioneer's. *)
Theorem C98_commands : forall modules name,
  cmd_for modules name =
    if text_eqb name (T "version") then Some CmdVersion
    else if text_eqb name (T "sdist") then Some CmdSdist
    else if text_eqb name (T "build_py") then if loaded (T "cx_Freeze") modules then None else Some CmdBuildPy
    else if text_eqb name (T "build_exe") then if loaded (T "cx_Freeze") modules then Some CmdBuildExe else None
    else if text_eqb name (T "py2exe") then if loaded (T "py2exe") modules then Some CmdPy2exe else None
    else None.
Proof.
  intros modules name. unfold cmd_for.
  assert (E : get_cmdclass modules = (T "version", CmdVersion)
    :: (if loaded (T "cx_Freeze") modules then [(T "build_exe", CmdBuildExe)] else [(T "build_py", CmdBuildPy)])
    ++ (if loaded (T "py2exe") modules then [(T "py2exe", CmdPy2exe)] else []) ++ [(T "sdist", CmdSdist)]).
  { unfold get_cmdclass. now destruct (loaded (T "cx_Freeze") modules), (loaded (T "py2exe") modules). }
  rewrite E. clear E.
  destruct (text_eqb name (T "version")) eqn:E1; [apply text_eqb_eq in E1; subst name; reflexivity|].
  destruct (text_eqb name (T "sdist")) eqn:E2; [apply text_eqb_eq in E2; subst name; now destruct (loaded _ _), (loaded _ _)|].
  destruct (text_eqb name (T "build_py")) eqn:E3; [apply text_eqb_eq in E3; subst name; now destruct (loaded _ _), (loaded _ _)|].
  destruct (text_eqb name (T "build_exe")) eqn:E4; [apply text_eqb_eq in E4; subst name; now destruct (loaded _ _), (loaded _ _)|].
  destruct (text_eqb name (T "py2exe")) eqn:E5; [apply text_eqb_eq in E5; subst name; now destruct (loaded _ _), (loaded _ _)|].
  destruct (loaded (T "cx_Freeze") modules), (loaded (T "py2exe") modules); cbn [app find fst snd option_map];
    rewrite ?E1, ?E2, ?E3, ?E4, ?E5; reflexivity.
Qed.
Print Assumptions C98_commands.

(** Building: sdist, or build_py in a process without cx_Freeze. *)
Definition building (st : list text * text * git) : Prop :=
  let '(modules, name, _) := st in
  name = T "sdist" \/ (name = T "build_py" /\ ~ In (T "cx_Freeze") modules).

Lemma building_cmd modules name g : building (modules, name, g) ->
  cmd_for modules name = Some CmdSdist \/ cmd_for modules name = Some CmdBuildPy.
Proof.
  intros [->|[-> H]]; rewrite C98_commands; [now left|right].
  assert (E : loaded (T "cx_Freeze") modules = false); [|rewrite E; reflexivity].
  unfold loaded. apply not_true_is_false. intros X. apply existsb_exists in X as (m & Hm & X). apply text_eqb_eq in X. now subst m.
Qed.
Lemma setup_reads d g : d <> [] -> setup_get_versions (version_file d) g = VOk d.
Proof.
  intros H. unfold setup_get_versions. rewrite (no_keywords _ H). cbn [git_versions_from_keywords vbind otherwise].
  now rewrite (versions_from_file_ok _ H).
Qed.

(** From any tree, with any git output at the first step and any at the later
    ones: if the first step succeeds all of them do, the version file does not
    change any more, and in every tree on the way setup.py and a second run of
    it find the dictionary of the first step, whatever git says there. *)
Theorem C98_chain : forall st steps contents,
  building st -> Forall building steps ->
  let first := setup_get_versions contents (snd st) in
  match first with
  | VOk d =>
      match dict_get d (T "version") with
      | VOk _ => repackaged (st :: steps) contents = VOk (version_file d)
                 /\ forall g, setup_get_versions (version_file d) g = VOk d
      | VRaise e => repackaged (st :: steps) contents = VRaise e
      end
  | VRaise e => repackaged (st :: steps) contents = VRaise e
  end.
Proof.
  assert (G : forall modules name g c, building (modules, name, g) -> packaged modules name g c =
    vbind (setup_get_versions c g) (fun d => vbind (dict_get d (T "version")) (fun _ => VOk (version_file d)))).
  { intros modules name g c H. unfold packaged. now destruct (building_cmd _ _ _ H) as [-> | ->]. }
  intros [[modules name] g] steps contents B F. cbn [snd repackaged]. cbv zeta. rewrite (G _ _ _ _ B).
  destruct (setup_get_versions contents g) as [d|e]; [|reflexivity]. cbn [vbind]. destruct (dict_get d (T "version")) as [v|e] eqn:Ev; [|reflexivity].
  cbn [vbind]. assert (N : d <> []) by (intros ->; discriminate). split; [|intros g'; now apply setup_reads].
  induction F as [|[[m' n'] g'] steps B' _ IH]; [reflexivity|]. cbn [repackaged]. rewrite (G _ _ _ _ B'), (setup_reads d g' N). cbn [vbind].
  rewrite Ev. cbn [vbind]. exact IH.
Qed.
Print Assumptions C98_chain.

(** The package that comes out at the end of the chain, imported: it has the
    version of the first step (for texts that the literal keeps, see C73). *)
Theorem C98_imported_partial : forall st steps contents v,
  building st -> Forall building steps ->
  setup_get_versions contents (snd st) = VOk (dict_of v) -> clean_versions v ->
  exists c, repackaged (st :: steps) contents = VOk c
    /\ import_get_versions c = VOk (dict_of v) /\ version_of (dict_of v) = VOk (JText (v_version v)).
Proof.
  intros st steps contents v B F E C. pose proof (C98_chain st steps contents B F) as H. cbv zeta in H. rewrite E in H.
  change (dict_get (dict_of v) (T "version")) with (VOk (JText (v_version v))) in H. destruct H as [H _].
  exists (version_file (dict_of v)). split; [exact H|]. now apply C73_import_partial.
Qed.
Print Assumptions C98_imported_partial.

(** In a process that has loaded cx_Freeze, build_py is that of setuptools: the
    package gets the template of the source tree instead of the version.  The
    package built from a checkout of version 1.0 does not know its version. *)
Theorem C98_frozen_refuted : exists modules contents g v file,
  setup_get_versions contents g = VOk (dict_of v) /\ v_version v = T "1.0"
  /\ repackaged [(modules, T "build_py", g)] contents = VOk contents
  /\ git_get_keywords contents = repo_keywords
  /\ option_map v_version (match get_versions repo_keywords (Some file) (Git None None None None None) with VOk w => Some w | _ => None end)
     = Some (T "0+unknown").
Proof.
  exists [T "cx_Freeze"], (version_source [] [] (T "$Format:%d$") (T "$Format:%H$") (T "$Format:%ci$")),
    (Git (Some (T ".git")) (Some (describe_output (T "v1.0") 0 (T "abc1234") false)) (Some (T "abc1234def"))
          None (Some (T "2020-11-16 10:00:00 +0200"))).
  exists (Versions (T "1.0") (Some (T "abc1234def")) (Some false) None (Some (T "2020-11-16T10:00:00+0200"))),
    (T "/site-packages/gcs/_version.py"). split; [vm_compute; reflexivity|]. repeat split; vm_compute; reflexivity.
Qed.
Print Assumptions C98_frozen_refuted.

(** A checkout of 1.0, packed, unpacked in a checkout of another project at 7.0
    and packed again, unpacked without git and built. *)
Example C98_case :
  let at_tag t := Git (Some (T ".git")) (Some (describe_output t 0 (T "abc1234") false)) (Some (T "abc1234def"))
                      None (Some (T "2020-11-16 10:00:00 +0200")) in
  let contents := version_source [] [] (T "$Format:%d$") (T "$Format:%H$") (T "$Format:%ci$") in
  let steps := [([], T "sdist", at_tag (T "v7.0")); ([T "py2exe"], T "build_py", Git None None None None None)] in
  building ([], T "sdist", at_tag (T "v1.0")) /\ Forall building steps
  /\ exists c d, repackaged (([], T "sdist", at_tag (T "v1.0")) :: steps) contents = VOk c
       /\ import_get_versions c = VOk d /\ version_of d = VOk (JText (T "1.0"))
       /\ vbind (setup_get_versions contents (at_tag (T "v7.0"))) version_of = VOk (JText (T "7.0")).
Proof.
  cbv zeta. split; [now left|]. split.
  - constructor; [now left|]. constructor; [|constructor]. right. split; [reflexivity|]. intros [H|[]]. discriminate.
  - eexists _, _. split; [vm_compute; reflexivity|]. split; [vm_compute; reflexivity|]. split; vm_compute; reflexivity.
Qed.

(** C91: python versioneer.py setup, stopped at any point and run again. *)
From Coq Require Import Ascii String List Bool Lia.
From Verif Require Import Version VersionFacts Versioneer Setup PropSetup.
Import ListNotations.
Open Scope list_scope.

(** The states a run can be stopped in: some of the changes are made, the last
    of them perhaps only in part. *)
Inductive stopped (t : tree) (changes : list change) : tree -> Prop :=
  | between done rest : changes = done ++ rest -> stopped t changes (fold_left apply_change done t)
  | within_write done f s1 s2 rest : changes = done ++ Append f (s1 ++ s2) :: rest ->
      stopped t changes (fold_left apply_change (done ++ [Append f s1]) t).

(** The changes together are the run. *)
Theorem C91_changes : forall template source t,
  fold_left apply_change (setup_changes template source t) t = do_setup template source t.
Proof.
  intros template source [v i m g]. unfold setup_changes, do_setup. cbn [init_py manifest_in gitattributes].
  unfold setup_init, setup_manifest, setup_attributes.
  destruct i as [c|]; [destruct (contains init_snippet (universal c))|];
    (destruct (mem (T "versioneer.py") _); destruct (mem source _); destruct (existsb _ _));
    cbn [app fold_left apply_change set_file file_of version_py init_py manifest_in gitattributes contents];
    rewrite <- ?app_assoc, ?app_nil_r; try reflexivity; destruct m; rewrite ?app_nil_r; try reflexivity.
Qed.
Print Assumptions C91_changes.

(** The line that includes [f]. *)
Definition include (f : text) : text := T "include " ++ f ++ [newline].

(** The contents a file has when the run is stopped between two changes. *)
Definition files_between (source : text) (t u : tree) : Prop :=
  (init_py u = init_py t \/ init_py u = setup_init (init_py t))
  /\ (manifest_in u = manifest_in t \/ manifest_in u = setup_manifest source (manifest_in t)
      \/ (manifest_in u = Some (contents (manifest_in t) ++ include tool)
          /\ ~ includes tool (contents (manifest_in t)) /\ ~ includes source (contents (manifest_in t))))
  /\ (gitattributes u = gitattributes t \/ gitattributes u = setup_attributes source (gitattributes t)).

Lemma between_files template source t done rest : setup_changes template source t = done ++ rest ->
  files_between source t (fold_left apply_change done t).
Proof.
  destruct t as [v i m g]. unfold setup_changes, files_between. cbn [init_py manifest_in gitattributes].
  unfold setup_init, setup_manifest, setup_attributes. change (T "include versioneer.py" ++ [newline]) with (include tool).
  fold (include source). fold tool. rewrite <- !simple_includes_iff.
  destruct i as [c|]; [destruct (contains init_snippet (universal c))|];
    (destruct (mem tool _) eqn:E1; destruct (mem source _) eqn:E2; destruct (existsb _ _));
    cbn [app]; intros E;
    repeat (destruct done as [|? done];
      [clear E; cbn [fold_left apply_change set_file file_of version_py init_py manifest_in gitattributes contents];
       rewrite <- ?app_assoc, ?app_nil_r; repeat split; try (now left); try (now right); try (right; now left);
       try (right; right; repeat split; discriminate); destruct m; try (now left); try (right; now left);
       try (right; right; repeat split; discriminate)
      |cbn [app] in E; first [discriminate E | injection E as <- E]]).
Qed.

Lemma include_only f g : path g -> includes f (include g) -> f = g.
Proof.
  intros Hg H. apply includes_full in H. destruct H as (r & H & Hw). unfold include in H.
  rewrite app_assoc, no_eol_line in H; [|apply Forall_app; split; [repeat constructor|apply nonspace_no_eol, Hg]|discriminate].
  destruct H as [H|[]]. apply app_inv_head in H. subst r. apply word_words in Hw. rewrite words_one in Hw by exact Hg.
  destruct Hw as [Hw|[]]. congruence.
Qed.

Lemma manifest_between source o : path source -> source <> tool -> opt_ends o ->
  ~ includes tool (contents o) -> ~ includes source (contents o) ->
  setup_manifest source (Some (contents o ++ include tool)) = setup_manifest source o.
Proof.
  intros Hs Hd Ho N1 N2.
  destruct (manifest_cases source o) as (a1 & _ & _ & B1 & _ & _ & _ & D1).
  destruct (manifest_cases source (Some (contents o ++ include tool))) as (a2 & _ & _ & B2 & _ & D2 & _ & _).
  cbn [contents] in *. specialize (D1 N1 N2).
  assert (I1 : includes tool (contents o ++ include tool)).
  { apply includes_app; [exact Ho|]. right. apply (includes_line tool []), path_tool. }
  assert (I2 : ~ includes source (contents o ++ include tool)).
  { intros H. apply includes_app in H; [|exact Ho]. destruct H as [H|H]; [now apply N2|].
    apply include_only in H; [congruence|apply path_tool]. }
  specialize (D2 I1 I2). subst a1 a2. rewrite B1, B2 by discriminate. f_equal. unfold include. now rewrite <- !app_assoc.
Qed.

Lemma resume_files template source t u : path source -> source <> tool ->
  ends_line (contents (manifest_in t)) -> ends_line (contents (gitattributes t)) -> files_between source t u ->
  do_setup template source u = do_setup template source t.
Proof.
  intros Hs Hd Hm Hg (Hi & HM & HG). unfold do_setup. f_equal.
  - destruct Hi as [-> | ->]; [reflexivity|apply init_again].
  - destruct HM as [-> |[-> |(-> & N1 & N2)]]; [reflexivity|apply manifest_again; auto|now apply manifest_between].
  - destruct HG as [-> | ->]; [reflexivity|apply attributes_again; auto].
Qed.

(** Stopped between two changes, or while it writes the version file, and run
    again, the command leaves the tree as if it had not been stopped. *)
Theorem C91_resume_partial : forall template source t u, path source -> source <> T "versioneer.py" ->
  ends_line (contents (manifest_in t)) -> ends_line (contents (gitattributes t)) ->
  (exists done rest, setup_changes template source t = done ++ rest /\ u = fold_left apply_change done t)
  \/ (exists written rest, template = written ++ rest
        /\ u = Tree (Some written) (init_py t) (manifest_in t) (gitattributes t)) ->
  do_setup template source u = do_setup template source t.
Proof.
  intros template source t u Hs Hd Hm Hg [(done & rest & E & ->)|(written & rest & _ & ->)].
  - apply resume_files; auto. eapply between_files, E.
  - reflexivity.
Qed.
Print Assumptions C91_resume_partial.

(** * Cut off within a line *)
Definition appended (f : file) (c : change) : text :=
  match c with
  | Append g s => match f, g with
                  | FVersion, FVersion | FInit, FInit | FManifest, FManifest | FAttributes, FAttributes => s
                  | _, _ => []
                  end
  | Empty _ => []
  end.

Lemma appended_all f cs : f <> FVersion -> Forall (fun c => match c with Empty g => g = FVersion | _ => True end) cs ->
  forall t, contents (file_of (fold_left apply_change cs t) f) = contents (file_of t f) ++ flat_map (appended f) cs.
Proof.
  intros Hf. induction 1 as [|c cs Hc _ IH]; intros t; [now rewrite app_nil_r|]. cbn [fold_left flat_map]. rewrite IH, app_assoc.
  f_equal. destruct c as [g|g s]; [subst g|]; destruct f; try congruence; try destruct g; cbn; now rewrite ?app_nil_r.
Qed.

Lemma only_version_emptied template source t :
  Forall (fun c => match c with Empty g => g = FVersion | _ => True end) (setup_changes template source t).
Proof.
  unfold setup_changes. repeat (apply Forall_app; split).
  - repeat constructor.
  - destruct (init_py t); [destruct (contains _ _)|]; repeat constructor.
  - destruct (mem _ _); repeat constructor.
  - destruct (mem _ _); repeat constructor.
  - destruct (existsb _ _); repeat constructor.
Qed.

(** Wherever it is stopped, nothing but the version file has lost text, and every
    other file is a beginning of what it would have become. *)
Theorem C91_kept : forall template source t u f, stopped t (setup_changes template source t) u -> f <> FVersion ->
  (exists a, contents (file_of u f) = contents (file_of t f) ++ a)
  /\ exists b, contents (file_of (do_setup template source t) f) = contents (file_of u f) ++ b.
Proof.
  intros template source t u f H Hf. rewrite <- C91_changes.
  pose proof (only_version_emptied template source t) as HV.
  rewrite (appended_all f _ Hf HV). destruct H as [done rest E|done g s1 s2 rest E]; rewrite E in *.
  - apply Forall_app in HV. destruct HV as [HV _]. rewrite (appended_all f _ Hf HV), flat_map_app. split; [eauto|].
    exists (flat_map (appended f) rest). now rewrite app_assoc.
  - apply Forall_app in HV. destruct HV as [HV _].
    rewrite (appended_all f (done ++ [Append g s1]) Hf) by (apply Forall_app; split; [exact HV|repeat constructor]).
    rewrite !flat_map_app. split; [eauto|]. cbn [flat_map]. rewrite app_nil_r.
    destruct (appended f (Append g s1)) as [|x l] eqn:E1.
    + exists (appended f (Append g (s1 ++ s2)) ++ flat_map (appended f) rest). now rewrite app_nil_r, <- !app_assoc.
    + assert (E2 : appended f (Append g (s1 ++ s2)) = (x :: l) ++ s2).
      { rewrite <- E1. destruct f, g; cbn in *; try reflexivity; try discriminate. }
      rewrite E2. exists (s2 ++ flat_map (appended f) rest). now rewrite <- !app_assoc.
Qed.
Print Assumptions C91_kept.

(** Wherever it is stopped, two more runs complete the set-up. *)
Theorem C91_two_runs : forall template source t u, path source -> stopped t (setup_changes template source t) u ->
  let twice := do_setup template source (do_setup template source u) in
  version_py twice = Some template
  /\ (init_py t <> None -> within init_snippet (universal (contents (init_py twice))))
  /\ includes (T "versioneer.py") (contents (manifest_in twice)) /\ includes source (contents (manifest_in twice))
  /\ (exists suffix, Forall (fun x => is_space x = false) suffix /\ exported (source ++ suffix) (contents (gitattributes twice)))
  /\ do_setup template source twice = twice.
Proof.
  intros template source t u Hs Hst twice.
  pose proof (C82_settles template source u Hs) as S. cbn zeta in S. fold twice in S.
  split; [reflexivity|]. split.
  { intros Hi. assert (Hu : init_py u <> None).
    { assert (G : forall cs t, init_py t <> None -> init_py (fold_left apply_change cs t) <> None).
      { induction cs as [|c cs IH]; intros t' Ht; [exact Ht|]. cbn [fold_left]. apply IH.
        destruct c as [g|g s]; destruct g; cbn; congruence. }
      destruct Hst; now apply G. }
    unfold twice, do_setup. cbn [init_py]. rewrite init_again. pose proof (C82_init (init_py u)) as H.
    destruct (init_py u) as [c|]; [|congruence]. destruct (setup_init (Some c)); [|destruct H]. apply H. }
  assert (SM : setup_manifest source (manifest_in twice) = manifest_in twice)
    by (exact (f_equal manifest_in S)).
  assert (SA : setup_attributes source (gitattributes twice) = gitattributes twice)
    by (exact (f_equal gitattributes S)).
  apply C77_manifest_exact in SM. apply C77_attributes_exact in SA; [|exact Hs].
  destruct SM as [M1 M2]. repeat split; auto.
Qed.
Print Assumptions C91_two_runs.

(** One run is not enough when it was stopped within a line of MANIFEST.in, and a
    part of the snippet stays in __init__.py for ever: the line that was cut is
    not a line of the finished file, but stays there. *)
Theorem C91_cut_refuted : exists template source t u1 u2,
  path source /\ ends_line (contents (manifest_in t)) /\ ends_line (contents (gitattributes t))
  /\ stopped t (setup_changes template source t) u1 /\ stopped t (setup_changes template source t) u2
  /\ ~ includes (T "versioneer.py") (contents (manifest_in (do_setup template source u1)))
  /\ (exists line, ~ is_line line (contents (init_py (do_setup template source t)))
        /\ forall n, is_line line (contents (init_py (Nat.iter n (do_setup template source) u2)))).
Proof.
  set (t := Tree None (Some []) None None).
  exists [], (T "gcs/_version.py"), t,
    (fold_left apply_change ([Empty FVersion; Append FVersion []; Append FInit init_snippet] ++ [Append FManifest (T "inc")]) t),
    (fold_left apply_change ([Empty FVersion; Append FVersion []] ++ [Append FInit (newline :: T "from ._ver")]) t).
  split; [split; [discriminate|repeat constructor]|]. split; [now left|]. split; [now left|].
  split; [|split; [|split]].
  - eapply (within_write _ _ _ _ _ (T "lude versioneer.py" ++ [newline])). reflexivity.
  - eapply (within_write _ _ _ _ _ (T "sion import get_versions" ++ newline :: T "__version__ = get_versions()['version']"
      ++ newline :: T "del get_versions" ++ [newline])). reflexivity.
  - rewrite <- simple_includes_iff. vm_compute. discriminate.
  - exists (T "from ._ver"). split.
    + rewrite line_full by discriminate. vm_compute. intros H. repeat (destruct H as [H|H]; [discriminate H|]). exact H.
    + intros n.
      assert (E : forall n, exists k, init_py (Nat.iter n (do_setup [] (T "gcs/_version.py"))
                  (fold_left apply_change ([Empty FVersion; Append FVersion []] ++ [Append FInit (newline :: T "from ._ver")]) t))
                = Some (newline :: T "from ._ver" ++ k) /\ (k = [] \/ k = init_snippet)).
      { clear n. induction n as [|n (k & IH & Hk)]; [exists []; split; [reflexivity|now left]|].
        cbn [Nat.iter nat_rect]. unfold do_setup at 1. cbn [init_py]. unfold Nat.iter in IH. rewrite IH.
        exists init_snippet. split; [|now right]. destruct Hk as [-> | ->]; vm_compute; reflexivity. }
      destruct (E n) as (k & -> & Hk). cbn [contents]. rewrite line_full by discriminate.
      destruct Hk as [-> | ->]; vm_compute; tauto.
Qed.
Print Assumptions C91_cut_refuted.

(** A tree that has all files, stopped after the first line of MANIFEST.in. *)
Example C91_case :
  let source := T "gcs/_version.py" in
  let t := Tree (Some (T "old")) (Some (T "x = 1" ++ [newline])) (Some (T "include README.md" ++ [newline])) (Some []) in
  let u := fold_left apply_change [Empty FVersion; Append FVersion (T "new"); Append FInit init_snippet;
                                   Append FManifest (T "include versioneer.py" ++ [newline])] t in
  path source /\ source <> T "versioneer.py" /\ ends_line (contents (manifest_in t)) /\ ends_line (contents (gitattributes t))
  /\ stopped t (setup_changes (T "new") source t) u
  /\ u <> t /\ u <> do_setup (T "new") source t
  /\ do_setup (T "new") source u = do_setup (T "new") source t.
Proof.
  cbn zeta. split; [split; [discriminate|repeat constructor]|]. split; [discriminate|].
  split; [right; exists (T "include README.md"), newline; split; reflexivity|]. split; [now left|].
  split; [eapply between; reflexivity|]. split; [discriminate|]. split; [|vm_compute; reflexivity].
  intros E. apply (f_equal gitattributes) in E. discriminate E.
Qed.

(** C101: what python versioneer.py setup leaves in the index of git. *)
From Coq Require Import Ascii String List Bool Lia.
From Verif Require Import Version VersionFacts Versioneer Setup PropSetup PropResume.
Import ListNotations.
Open Scope list_scope.

(** The index has the files of the tree: there is nothing to add. *)
Definition clean (t : tree) (index : file -> option text) : Prop := forall f, index f = file_of t f.

Lemma all_present template source t : forallb (present (do_setup template source t)) (git_added source t) = true.
Proof.
  unfold git_added. cbn [forallb present file_of app do_setup version_py manifest_in].
  assert (M : setup_manifest source (manifest_in t) <> None).
  { unfold setup_manifest. destruct (manifest_in t) as [c|]; [now destruct (_ ++ _)|]. cbn. discriminate. }
  destruct (setup_manifest source (manifest_in t)) as [m|]; [|contradiction]. cbn [andb].
  rewrite forallb_app. apply andb_true_intro. split.
  - destruct (init_py t) as [c|] eqn:E; [|reflexivity]. unfold do_setup. cbn [forallb present file_of init_py]. rewrite E. cbn [setup_init]. now destruct (contains _ _).
  - cbn [app forallb present andb]. destruct (existsb _ _) eqn:E; [reflexivity|]. unfold do_setup. cbn [forallb present file_of gitattributes]. unfold setup_attributes. now rewrite E.
Qed.

(** git add succeeds, and every file but .gitattributes is in the index as it is in
    the tree; .gitattributes is when the command has changed it. *)
Theorem C101_added : forall template source t index,
  let t' := do_setup template source t in
  let index' := setup_index template source t index in
  (forall a, In a (git_added source t) -> present t' a = true)
  /\ index' FVersion = version_py t' /\ index' FManifest = manifest_in t'
  /\ (init_py t' <> None -> index' FInit = init_py t')
  /\ (gitattributes t' <> gitattributes t -> index' FAttributes = gitattributes t').
Proof.
  intros template source t index. cbv zeta. pose proof (all_present template source t) as P.
  split; [now apply forallb_forall|]. unfold setup_index, git_add. rewrite P. cbn [andb].
  split; [reflexivity|]. split; [reflexivity|]. unfold git_added. rewrite !existsb_app. split.
  - cbn [existsb adds orb andb]. unfold do_setup. cbn [init_py file_of]. destruct (init_py t); [reflexivity|]. cbn. now intros [].
  - intros H. unfold do_setup in *. cbn [gitattributes file_of] in *. unfold setup_attributes in H |- *.
    destruct (existsb (marks_line source) _); [now contradiction H|]. cbn [existsb adds orb]. rewrite !orb_true_r. reflexivity.
Qed.
Print Assumptions C101_added.

(** In a tree without changes the command leaves none outside the index, so that
    the next commit has the complete set-up. *)
Theorem C101_complete : forall template source t index, clean t index ->
  clean (do_setup template source t) (setup_index template source t index).
Proof.
  intros template source t index C f. pose proof (C101_added template source t index) as (_ & A1 & A2 & A3 & A4).
  destruct f; cbn [file_of]; [exact A1| |exact A2|].
  - destruct (init_py (do_setup template source t)) as [c|] eqn:E; [now apply A3|].
    unfold setup_index, git_add. rewrite all_present. unfold git_added. rewrite !existsb_app. cbn [existsb adds orb andb].
    assert (N : init_py t = None) by (cbn [do_setup init_py] in E; destruct (init_py t); [cbn in E; destruct (contains _ _); discriminate|reflexivity]).
    rewrite N. cbn [existsb orb]. destruct (existsb _ (lines _)); cbn [existsb adds orb]; rewrite C; cbn [file_of]; exact N.
  - unfold setup_index, git_add. rewrite all_present. unfold git_added. rewrite !existsb_app. cbn [existsb adds orb andb].
    unfold do_setup. cbn [file_of gitattributes]. unfold setup_attributes. destruct (existsb (marks_line source) _) eqn:E.
    + cbn [existsb]. rewrite C. cbn [file_of]. match goal with |- (if ?b then _ else _) = _ => now destruct b end.
    + cbn [existsb adds orb]. now rewrite !orb_true_r.
Qed.
Print Assumptions C101_complete.

(** A run is stopped before git add, and the command is run again: everything but
    .gitattributes is in the index afterwards. *)
Theorem C101_again_partial : forall template source t index u, clean t index ->
  stopped t (setup_changes template source t) u ->
  forall f, f <> FAttributes -> setup_index template source u index f = file_of (do_setup template source u) f.
Proof.
  intros template source t index u C S f Hf. pose proof (C101_added template source u index) as (_ & A1 & A2 & A3 & _).
  destruct f; cbn [file_of]; [exact A1| |exact A2|contradiction].
  destruct (init_py (do_setup template source u)) as [c|] eqn:E; [now apply A3|].
  assert (N : init_py u = None) by (cbn [do_setup init_py] in E; destruct (init_py u); [cbn in E; destruct (contains _ _); discriminate|reflexivity]).
  assert (N0 : init_py t = None).
  { assert (G : forall cs t, init_py t <> None -> init_py (fold_left apply_change cs t) <> None).
    { induction cs as [|c cs IH]; intros t' Ht; [exact Ht|]. cbn [fold_left]. apply IH. destruct c as [g|g s]; destruct g; cbn; congruence. }
    destruct (init_py t) as [c|] eqn:Et; [|reflexivity]. exfalso. assert (X : init_py t <> None) by congruence. destruct S; now apply (G _ _ X) in N. }
  unfold setup_index, git_add. rewrite all_present. unfold git_added. rewrite !existsb_app. cbn [existsb adds orb andb]. rewrite N.
  cbn [existsb orb]. destruct (existsb _ (lines _)); cbn [existsb adds orb]; rewrite C; cbn [file_of]; exact N0.
Qed.
Print Assumptions C101_again_partial.

(** But .gitattributes never is: if the first run ends just before git add (or git
    cannot be started then), and had to mark the version file, the second run finds
    the mark in the tree and leaves it out of the index. *)
Theorem C101_again_refuted : forall template source t index, path source -> clean t index ->
  ends_line (contents (gitattributes t)) ->
  (forall suffix, Forall (fun x => is_space x = false) suffix -> ~ exported (source ++ suffix) (contents (gitattributes t))) ->
  let u := do_setup template source t in
  stopped t (setup_changes template source t) u
  /\ exported source (contents (gitattributes u))
  /\ setup_index template source u index FAttributes = gitattributes t
  /\ ~ exported source (contents (setup_index template source u index FAttributes)).
Proof.
  intros template source t index Hs C He Hx u.
  assert (X : exported source (contents (gitattributes u))).
  { destruct (C77_attributes_partial source (gitattributes t) Hs He) as [A _]; [intros suffix H1 H2; exfalso; exact (Hx suffix H1 H2)|exact A]. }
  assert (Y : setup_index template source u index FAttributes = gitattributes t).
  { unfold setup_index, git_add. rewrite all_present. unfold git_added. rewrite !existsb_app. cbn [existsb adds orb andb].
    rewrite (exported_marks source _ Hs X). cbn [existsb]. rewrite orb_false_r. destruct (init_py u); cbn [existsb adds orb]; apply C. }
  split; [|split; [exact X|split; [exact Y|]]].
  - replace u with (fold_left apply_change (setup_changes template source t) t) by apply C91_changes.
    apply (between t _ (setup_changes template source t) []). now rewrite app_nil_r.
  - rewrite Y. intros H. apply (Hx []); [constructor|]. now rewrite app_nil_r.
Qed.
Print Assumptions C101_again_refuted.

(** A tree without MANIFEST.in and with a .gitattributes for other files. *)
Example C101_case :
  let source := T "gcs/_version.py" in
  let t := Tree None (Some (T "import os")) None (Some (T "*.png binary" ++ [newline])) in
  path source /\ clean t (file_of t) /\ ends_line (contents (gitattributes t))
  /\ (forall suffix, Forall (fun x => is_space x = false) suffix -> ~ exported (source ++ suffix) (contents (gitattributes t)))
  /\ git_added source t = [AddFile FManifest; AddFile FVersion; AddFile FInit; AddTool; AddFile FAttributes]
  /\ git_added source (do_setup (T "x") source t) = [AddFile FManifest; AddFile FVersion; AddFile FInit; AddTool].
Proof.
  cbv zeta. assert (Hs : path (T "gcs/_version.py")) by (split; [discriminate|repeat constructor]).
  split; [exact Hs|]. split; [intros f; reflexivity|]. split; [apply (ends_newline [])|]. split; [|split; vm_compute; reflexivity].
  intros suffix H1 H2. assert (X : existsb (marks_line (T "gcs/_version.py")) (lines (universal (T "*.png binary" ++ [newline]))) = true)
    by (apply marks_exists; [exact Hs|exists suffix; now split]). vm_compute in X. discriminate X.
Qed.

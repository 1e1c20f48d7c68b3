(** Concrete cases for the theorems on versions, on versioneer and on setup.py:
    each example applies theorems to data that meets their hypotheses. *)
From Coq Require Import String Ascii ZArith NArith Bool Lia List.
From Verif Require Import Version VersionFacts Versioneer Setup Build Project Install PropVersion PropDict PropDist PropStyle
  PropImport PropConstruct PropSetup PropConfig PropCrash PropBuild.
From Verif Require PropProject PropInstall PropResume PropStage PropReport PropOrder.
Import ListNotations.
Open Scope list_scope.

Ltac text_facts := repeat (split || constructor); try discriminate; try (cbn; intuition discriminate).

(** A checkout 12 commits after the tag v1.0-rc1, with changes. *)
Definition hex := T "0123abc".
Definition head := T "0123abcdef".
Definition tagged : git :=
  Git (Some (T ".git")) (Some (describe_output (T "v" ++ T "1.0-rc1") 12 hex true ++ [newline])) (Some (head ++ [newline]))
      (option_map (fun c => c ++ [newline]) (Some (nat_text 20))) (Some ((T "2020-01-02" ++ T " " ++ T "10:11:12" ++ T " " ++ T "+0200") ++ [newline])).
(** One without tags. *)
Definition untagged : git :=
  Git (Some (T ".git")) (Some ((hex ++ dirty_suffix false) ++ [newline])) (Some (head ++ [newline]))
      (Some (nat_text 5 ++ [newline])) (Some ((T "2020-01-02" ++ T " " ++ T "10:11:12" ++ T " " ++ T "+0200") ++ [newline])).

Example C63_cases :
  git_pieces_from_vcs (T "v") tagged
  = VOk (Parsed (Pieces (Some (T "1.0-rc1")) 12 hex head true (Some (T "2020-01-02T10:11:12+0200"))))
  /\ git_pieces_from_vcs (T "v") untagged
  = VOk (Parsed (Pieces None 5 (T "0123abc") head false (Some (T "2020-01-02T10:11:12+0200")))).
Proof.
  split.
  - apply (C63_tagged (T "v") (T "1.0-rc1") 12 hex true head (Some (nat_text 20)) (T "2020-01-02") (T "10:11:12") (T "+0200")); text_facts.
  - apply (C63_untagged (T "v") 5 hex false head (T "2020-01-02") (T "10:11:12") (T "+0200")); text_facts.
Qed.

Example C64_cases :
  get_versions repo_keywords (Some (T "/x/gcs/_version.py")) tagged
  = VOk (Versions (T "1.0-rc1+12.g0123abc.dirty") (Some head) (Some true) None (Some (T "2020-01-02T10:11:12+0200")))
  /\ get_versions repo_keywords (Some (T "/x/gcs/_version.py")) untagged
  = VOk (Versions (T "0+untagged.5.g0123abc") (Some head) (Some false) None (Some (T "2020-01-02T10:11:12+0200"))).
Proof.
  split.
  - apply (C64_checkout _ (T "1.0-rc1") 12 hex true head (Some (nat_text 20)) (T "2020-01-02") (T "10:11:12") (T "+0200")); text_facts.
  - apply (C64_untagged _ 5 hex false head (T "2020-01-02") (T "10:11:12") (T "+0200")); text_facts.
Qed.

Example C67_cases :
  let full := T "abc" in
  (forall date, git_versions_from_keywords (Keywords (Some (decoration [T "HEAD -> master"; T "origin/v"])) (Some full) date) (T "v")
     = VOk (Versions (T "0+unknown") (Some full) (Some false) (Some (T "no suitable tags")) None))
  /\ forall date, git_versions_from_keywords (Keywords (Some (decoration [T "tag: v1"; T "tag: v2"])) (Some full) date) (T "v")
     = git_versions_from_keywords (Keywords (Some (decoration [T "tag: v2"; T "tag: v1"; T "tag: v2"])) (Some full) date) (T "v").
Proof.
  split; intros date.
  - apply C67_no_tag; [discriminate|repeat constructor; try discriminate; cbn; intuition discriminate|text_facts|].
    intros v [H|(_ & H & _)]; cbn in H; intuition discriminate.
  - apply C67_order_irrelevant; try discriminate; try (repeat constructor; try discriminate; cbn; intuition discriminate).
    intros r. cbn. tauto.
Qed.

Example C68_cases :
  (g_show untagged <> None /\ exists c n, g_count untagged = Some c /\ int_of_text (bstrip c) = VOk n)
  /\ (exists x, get_versions repo_keywords (Some (T "/x/gcs/_version.py"))
        (Git (g_dir untagged) (g_describe untagged) (g_head untagged) (Some (T "none")) (g_show untagged)) = VRaise x).
Proof.
  split.
  - split; [discriminate|]. eexists _, _. split; [reflexivity|vm_compute; reflexivity].
  - apply C68_raises_exactly. repeat (split; [discriminate|]). exists (hex ++ [newline]), hex. split; [reflexivity|].
    split; [right; split; [vm_compute; reflexivity|]|].
    + intros t E. apply (f_equal (@rev _)) in E. rewrite rev_app_distr in E. vm_compute in E. discriminate.
    + left. split; [cbn; intuition discriminate|]. right. intros c n E. injection E as <-. vm_compute. discriminate.
Qed.

Example C73_cases : exists v,
  get_versions repo_keywords (Some (T "/x/gcs/_version.py")) tagged = VOk v
  /\ v_version v = T "1.0-rc1+12.g0123abc.dirty"
  /\ import_get_versions (version_file (dict_of v)) = VOk (dict_of v)
  /\ version_of (dict_of v) = VOk (JText (T "1.0-rc1+12.g0123abc.dirty")).
Proof.
  apply (C73_release_partial (T "/x/gcs/_version.py") (T "1.0-rc1") 12 hex true head (Some (nat_text 20)) (T "2020-01-02") (T "10:11:12") (T "+0200")
           (T ".git") [newline] [newline] [newline] [newline]); try (text_facts; cbn; lia).
  split; [text_facts; cbn; lia|]. intros a b E. assert (H : In "'"%char (T "1.0-rc1")).
  { rewrite E. apply in_or_app. right. now left. }
  cbn in H. intuition discriminate.
Qed.

Example C74_cases : forall g,
  setup_get_versions (version_source [T "def get_keywords():"] [T "    keywords = {}"] (T " (tag: v0.1)") (T "abc") (T "today")) g
  = vbind (get_versions (Keywords (Some (T " (tag: v0.1)")) (Some (T "abc")) (Some (T "today"))) (Some (T "/x")) g) (fun v => VOk (dict_of v)).
Proof.
  intros g. apply C74_same_version; try (text_facts; fail).
  - repeat constructor; try (intros name [<-|[<-|[<-|[]]]]; reflexivity); cbn; intuition discriminate.
  - intros a b E. assert (H : In "j"%char (a ++ T "version_json = '''" ++ b)).
    { apply in_or_app. right. cbn. tauto. }
    rewrite <- E in H. vm_compute in H. repeat destruct H as [H|H]; try discriminate; exact H.
Qed.

Example C72_cases :
  let h := [map Py.VInt [0; 1; 2]; map Py.VInt [7; 8]]%Z in
  let b n a := Storage.Buf n 0 a Py.VNone in
  (exists s', PropConstruct.construct h (Storage.SCSR [2; 5]%Z (b 3%Z 0%nat) (b 2%Z 1%nat) (b 2%Z 1%nat)) = Py.Ok s'
     /\ has_arguments (Storage.SCSR [2; 5]%Z (b 3%Z 0%nat) (b 2%Z 1%nat) (b 2%Z 1%nat)) s')
  /\ PropConstruct.construct h (Storage.SCSR [3; 5]%Z (b 3%Z 0%nat) (b 2%Z 1%nat) (b 2%Z 1%nat)) = Py.Raise Py.AssertionError.
Proof.
  cbv zeta. split.
  - apply C72_accepts; [exact I|]. now exists 2%Z, 5%Z.
  - rewrite C72_rejects; [reflexivity|exact I|]. intros (n & m & E & H & _). injection E as <- <-. discriminate H.
Qed.

Example C85_cases :
  let g := Git (Some (T ".git")) (Some (T "release-3-0-gabc-dirty")) (Some (T "abcdef")) None None in
  (exists reason, get_versions repo_keywords (Some (T "/x")) g = VOk (Versions (T "unknown") (Some (T "abcdef")) None (Some reason) None))
  /\ (let gits (_ : text) := Git None None None None None in
      get_versions_at (T "gcs-") repo_keywords (Some (T "/tmp" ++ T "/" ++ T "gcs-" ++ T "1.0" ++ T "/gcs/_version.py")) gits
      = VOk (Versions (T "1.0") None (Some false) None None)).
Proof.
  cbv zeta. split.
  - destruct (C85_not_understood (T "/x") (Git (Some (T ".git")) (Some (T "release-3-0-gabc-dirty")) (Some (T "abcdef")) None None)
      (T ".git") (T "release-3-0-gabc-dirty") (T "abcdef") (T "release-3-0-gabc") eq_refl eq_refl eq_refl) as (r & E & _); eauto.
    + left. vm_compute. reflexivity.
    + intros [H|(tag & num & hx & _ & tail & _ & E)]; [apply H; cbn; tauto|discriminate].
  - apply C85_unpacked; [text_facts|discriminate|reflexivity].
Qed.


Import PropProject.
Example C86_cases :
  let src := [T "src"; T "gcs"] in
  let setup (m : metadata) (p : process) : process * pres unit := (p, POk tt) in
  (exists v p2 path, project_versions case_disk (abs src) = POk v
     /\ setup_package false case_disk setup case_process = (Process (cwd case_process) path (argv0 p2), POk tt))
  /\ (get_root case_disk case_process = POk (abs src))
  /\ (setup_package false (Disk (fun f => if text_eqb f (file_in src (T "setup.cfg")) then None else d_file case_disk f) (d_git case_disk)) setup case_process
      = (Process (abs src) (abs src :: sys_path case_process) (argv0 case_process), PRaise NoSuchFile))
  /\ (exists p2 : process, setup_package false case_disk (fun m p => (Process (cwd p) [] (argv0 p), POk tt)) case_process = (p2, PRaise PIndexError)).
Proof.
  cbv zeta. destruct C86_case as (Hs & Hf & (v & Hv & Hj) & _). split; [|split; [|split]].
  - exists v, (Process (abs [T "src"; T "gcs"]) [abs [T "src"; T "gcs"]; T "/lib"] (argv0 case_process)), [T "/lib"]. split; [exact Hv|].
    apply (C86_own_tree false case_disk _ case_process [T "src"; T "gcs"] (T "setup.py") v (JText (T "0.1")) [T "numpy"] [T "pytest-runner"] [T "pytest"] Hs Hf) with (first := abs [T "src"; T "gcs"]);
      [exists (T "numpy"); split; [vm_compute; reflexivity|split; [apply C86_requirements; vm_compute; reflexivity|split; reflexivity]]|exact Hv|exact Hj|reflexivity|reflexivity].
  - refine (proj1 (proj2 (C86_root case_disk case_process [T "tmp"] _ _ _ eq_refl Hs)) _ (or_introl Hf)).
    + constructor; [known|constructor].
    + intros [H|H]; apply H; vm_compute; reflexivity.
  - eapply C86_failed; [exact Hs|]. vm_compute. reflexivity.
  - eexists. eapply C86_emptied; [vm_compute; reflexivity|vm_compute; reflexivity|reflexivity].
Qed.


Example C75_cases :
  let p := Pieces (Some (T "1.0")) 3 (T "0123abc") (T "0123abcdef") true None in
  let q := Pieces (Some (T "1.0")) 3 (T "0123abc") (T "0123abcdef") false None in
  render_style p (PropStyle.name Pep440Pre) = render_style q (PropStyle.name Pep440Pre) /\ render_style p (PropStyle.name Pep440) <> render_style q (PropStyle.name Pep440).
Proof.
  assert (A : forall d, checkout (Pieces (Some (T "1.0")) 3 (T "0123abc") (T "0123abcdef") d None)).
  { intros d. destruct C75_case as ((H1 & H2 & H3) & _). exact (conj H1 (conj H2 H3)). }
  cbv zeta. split.
  - apply C75_styles; auto.
  - intros H. apply C75_styles in H; auto. discriminate H.
Qed.

Example C77_cases :
  let source := T "gcs/_version.py" in
  let old := Some (T "include README.md" ++ [newline]) in
  (includes tool (contents (setup_manifest source old)) /\ includes source (contents (setup_manifest source old)))
  /\ setup_manifest source (setup_manifest source old) = setup_manifest source old
  /\ exported source (contents (setup_attributes source (Some (T "*.png binary" ++ [newline])))).
Proof.
  cbv zeta. assert (P : path (T "gcs/_version.py")) by (split; [discriminate|repeat constructor]).
  assert (H : ends_line (contents (Some (T "include README.md" ++ [newline])))).
  { right. exists (T "include README.md"), newline. split; reflexivity. }
  destruct (C77_manifest_partial _ _ P H) as (H1 & H2 & _). split; [auto|]. split; [now apply C77_manifest_exact|].
  refine (proj1 (C77_attributes_partial (T "gcs/_version.py") _ P _ _)).
  - right. exists (T "*.png binary"), newline. split; reflexivity.
  - intros suffix S1 S2. exfalso. destruct PropStage.C101_case as (_ & _ & _ & X & _). exact (X suffix S1 S2).
Qed.

Definition option_item (k v : string) : item := IOpt (T k) (T " = ") (T v).
Ltac item_facts := repeat (apply Forall_cons || apply Forall_nil);
  (split; [repeat split; try discriminate; repeat constructor; discriminate|
     split; [exists (T " "), "="%char, (T " "); repeat split; try (left; reflexivity); repeat constructor
            |repeat split; repeat constructor]]).

Example C87_cases :
  let items := [option_item "VCS" "git"; option_item "Style" "pep440"] in
  (exists p, read_config (section items) = POk p)
  /\ (exists err, read_config (section (items ++ [option_item "vcs" "hg"])) = PRaise err)
  /\ get_config (Some (section [option_item "Style" "pep440"])) = PRaise NoOption.
Proof.
  cbv zeta. split; [|split].
  - apply C87_accepts; [item_facts|]. repeat constructor; cbn; intuition discriminate.
  - destruct (C87_twice [] [] (T "VCS") (T " = ") (T "git") [option_item "Style" "pep440"] (T "vcs") (T " = ") (T "hg") [] [])
      as (e & E); [now left|item_facts|reflexivity|].
    exists e. rewrite app_nil_r in E. exact E.
  - pose proof (C87_vcs_required [] [option_item "Style" "pep440"] []) as H. cbv zeta in H. rewrite app_nil_r in H. apply H.
    + now left.
    + item_facts.
    + now left.
    + intros (a & b & E). assert (X : In "D"%char (a ++ T "[DEFAULT]" ++ b)) by (apply in_app_iff; right; right; now left).
      rewrite <- E in X. vm_compute in X. repeat destruct X as [X|X]; try discriminate; exact X.
    + eexists. vm_compute. reflexivity.
    + intros v (k & e & [X|[]] & Y). injection X as <- <- <-. vm_compute in Y. discriminate.
Qed.

Example C88_cases : forall template t,
  let '(cfg, t', r) := versioneer_setup template (Some repo_setup_cfg) t in
  r = POk 0%nat /\ cfg = Some repo_setup_cfg
  /\ exists c source, get_config cfg = POk c /\ c_source c = Some source /\ t' = do_setup (template c) source t.
Proof.
  intros template t. destruct (versioneer_setup template (Some repo_setup_cfg) t) as [[cfg t'] r] eqn:E.
  assert (R : r = POk 0%nat) by (vm_compute in E; injection E as _ _ <-; reflexivity). split; [exact R|]. rewrite R in E.
  destruct (C88_success _ _ _ _ _ E) as (-> & c & source & E1 & _ & E2 & _ & E3). split; [reflexivity|]. exists c, source. auto.
Qed.

Example C90_cases : forall g,
  let v := Versions (T "1.0") (Some (T "abc1234")) (Some false) None (Some (T "2020-11-16T10:00:00+0200")) in
  setup_get_versions (firstn (needed (dict_of v)) (version_file (dict_of v))) g = VOk (dict_of v)
  /\ setup_get_versions (firstn 30 (version_file (dict_of v))) g = setup_get_versions [] g
  /\ setup_get_versions (join [newline] ([T "def get_keywords():"] ++ PropDist.keyword_line (T "git_date") (T "today") :: [])) g = VRaise VKeyError.
Proof.
  intros g. cbv zeta. destruct C90_case as (H & H1 & _). cbv zeta in H, H1. split; [|split].
  - apply C90_complete; [discriminate|apply le_n].
  - apply C90_interrupted; [discriminate|exact H|]. apply Nat.ltb_lt. vm_compute. reflexivity.
  - apply C90_lost_keyword; [|cbn; intuition discriminate|cbn; tauto].
    repeat constructor; try (intros name [<-|[<-|[<-|[]]]]; reflexivity); cbn; intuition discriminate.
Qed.

Example C79_cases : forall g,
  let lib := T "build/lib" in let file := T "gcs/_version.py" in
  let s := Fs (fun p => if text_eqb p file then Some 0%nat else None) [T "import os"] in
  let v := Versions (T "1.0") None None None None in
  let '(h, ok) := run_steps (build_py [link file (path_join lib file)] lib (Some file) [version_file (dict_of v)]) s in
  ok = true /\ exists c, Build.content (final h s) (path_join lib file) = Some c /\ setup_get_versions c g = VOk (dict_of v).
Proof.
  intros g. cbv zeta.
  match goal with |- context [run_steps ?l ?s] => pose (st := l); pose (s0 := s) end.
  assert (S : sound s0).
  { intros p k. cbn. destruct (text_eqb _ _); [|discriminate]. intros H. injection H as <-. auto. }
  pose proof (C79_build_py s0 [link (T "gcs/_version.py") (path_join (T "build/lib") (T "gcs/_version.py"))] (T "build/lib") (T "gcs/_version.py")
    (Versions (T "1.0") None None None None) [version_file (dict_of (Versions (T "1.0") None None None None))] g S
    (Forall_cons _ (link_leaves _ _ _) (Forall_nil _)) ltac:(discriminate) ltac:(cbn [concat]; apply app_nil_r)) as H.
  subst s0. destruct (run_steps _ _) as [h ok] eqn:E. assert (O : ok = true) by (vm_compute in E; injection E as _ <-; reflexivity).
  split; [exact O|]. now apply H.
Qed.

Example C91_cases :
  let source := T "gcs/_version.py" in
  let t := Tree (Some (T "old")) (Some (T "x = 1" ++ [newline])) (Some (T "include README.md" ++ [newline])) (Some []) in
  let u := Tree (Some (T "ne")) (Some (T "x = 1" ++ [newline])) (Some (T "include README.md" ++ [newline])) (Some []) in
  do_setup (T "new") source u = do_setup (T "new") source t.
Proof.
  cbv zeta. destruct PropResume.C91_case as (P & N & M & A & _).
  apply (PropResume.C91_resume_partial _ _ _ _ P N M A). right. exists (T "ne"), (T "w"). split; reflexivity.
Qed.

Example C93_cases : forall v, versioneer_get_versions PropProject.case_disk PropProject.case_process = POk (dict_of v) ->
  cmd_version PropProject.case_disk PropProject.case_process = (PropReport.printed (PropReport.lines_for v), POk tt)
  /\ exists w, v_version w = T "0.1" /\ versioneer_get_versions PropProject.case_disk PropProject.case_process = POk (dict_of w).
Proof.
  intros v H. split; [now apply PropReport.C93_prints|].
  exists (Versions (T "0.1") (Some (T "abc")) (Some false) None (Some (T "today"))). split; [reflexivity|]. vm_compute. reflexivity.
Qed.

(** A version file without a version. *)
Example C93_no_version_case :
  let d := Disk (fun f => if text_eqb f (T "/src/gcs/gcs/_version.py") then Some (version_file [(T "error", JNull); (T "dirty", JBool true)])
                          else d_file PropProject.case_disk f) (d_git PropProject.case_disk) in
  cmd_version d PropProject.case_process = ([], PRaise (Computing VKeyError)).
Proof.
  intros d. assert (E : versioneer_get_versions d PropProject.case_process = POk [(T "error", JNull); (T "dirty", JBool true)]) by (vm_compute; reflexivity).
  assert (N : forall x, ~ In (T "version", x) [(T "error", JNull); (T "dirty", JBool true)]) by (intros x [H|[H|[]]]; discriminate H).
  destruct (PropReport.C93_no_version _ _ _ E) as [A B]. destruct (B N) as [C _]. apply A in N.
  rewrite (surjective_pairing (cmd_version d PropProject.case_process)). now rewrite N, C.
Qed.

Example C99_cases : forall g g',
  PropOrder.at_tag (T "0.9") 7 hex true g -> PropOrder.at_tag (T "0.10") 0 hex false g' ->
  (exists v w, PropOrder.version_is g v /\ PropOrder.version_is g' w /\ PropOrder.before v w)
  /\ PropOrder.at_tag (T "1.0-rc1") 12 hex true tagged /\ PropOrder.without_tag 5 head false untagged.
Proof.
  intros g g' H H'. split; [|split].
  - destruct (PropOrder.C99_next_release 7 0 hex true false g g' (T "0.10") [0; 10]%N) as [X _]; auto; [repeat constructor|].
    apply (X (T "0.9") [0; 9]%N hex); [repeat constructor|reflexivity|exact H].
  - repeat split; try discriminate; try (repeat constructor; fail); try (cbn; intuition discriminate).
    exists (T ".git"), head, (T "2020-01-02"), (T "10:11:12"), (T "+0200"), [newline], [newline], [newline], 20%N, [newline].
    split; [reflexivity|]. text_facts.
  - split; [text_facts|]. exists hex, (T ".git"), (T "2020-01-02"), (T "10:11:12"), (T "+0200"), [newline], [newline], [newline], [newline].
    split; [reflexivity|]. text_facts.
Qed.

Example C105_cases : exists d',
  main PropInstall.case_dirs (fun _ => T "new") PropInstall.case_away (Some (T "setup")) PropInstall.case_disk = (d', PRaise NoSuchFile)
  /\ d_git d' = d_git PropInstall.case_disk.
Proof.
  destruct PropInstall.C105_case_away as (N & S & P).
  destruct (PropInstall.C105_elsewhere PropInstall.case_dirs (fun _ => T "new") PropInstall.case_disk PropInstall.case_away [T "home"] [T "p"]
    (T "versioneer.py") [T "gcs"] (T "_version.py") PropInstall.case_config) as (d' & E & _ & G & _); auto.
  - constructor; [PropProject.known|constructor].
  - exact PropInstall.case_complete.
  - discriminate.
  - discriminate.
  - exists d'. auto.
Qed.

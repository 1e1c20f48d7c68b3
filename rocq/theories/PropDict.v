(** C85: the dictionary get_versions returns says what the version was computed
    from, or why there is none; git is asked about the directory the package is in. *)
From Coq Require Import String Ascii ZArith NArith Bool Lia List.
From Verif Require Import Version VersionFacts PropVersion.
Import ListNotations.
Open Scope list_scope.

(** * Specification *)

(** git describe names the tag [tag], [num] commits and the commit [hex]. *)
Definition names_tag (d tag num hex : text) : Prop :=
  describes tag num hex /\ exists tail, (tail = [] \/ tail = [newline]) /\ d = tag ++ T "-" ++ num ++ T "-g" ++ hex ++ tail.
(** The description can be understood: a commit without tag, or a tag with the
    prefix of this project. *)
Definition understood (d : text) : Prop :=
  ~ In "-"%char d \/ exists tag num hex, names_tag d (T "v" ++ tag) num hex.
(** git describe marks uncommitted changes. *)
Definition marked_dirty (out : text) : Prop := exists d, strip (bstrip out) = d ++ T "-dirty".

(** * Facts *)
Lemma description_step out d : description out d ->
  (if ends_with (T "-dirty") (strip (bstrip out))
   then match rindex (T "-dirty") (strip (bstrip out)) with
        | Some k => VOk (firstn k (strip (bstrip out))) | None => VRaise VValueError end
   else VOk (strip (bstrip out))) = VOk d.
Proof.
  unfold description. set (s := strip (bstrip out)). intros [E|[E N]].
  - assert (X : ends_with (T "-dirty") s = true) by (apply ends_with_iff; now exists d). rewrite X, E.
    rewrite rindex_suffix by discriminate. f_equal. apply firstn_app_len.
  - destruct (ends_with (T "-dirty") s) eqn:X; [|now f_equal].
    apply ends_with_iff in X. destruct X as [t Ht]. now contradiction (N t).
Qed.

Lemma description_exists out : exists d, description out d.
Proof.
  unfold description. set (s := strip (bstrip out)). destruct (ends_with (T "-dirty") s) eqn:X.
  - apply ends_with_iff in X. destruct X as [t Ht]. exists t. now left.
  - exists s. right. split; [reflexivity|]. intros t Ht.
    assert (Y : ends_with (T "-dirty") s = true) by (apply ends_with_iff; now exists t). congruence.
Qed.

Lemma description_unique out d d' : description out d -> description out d' -> d = d'.
Proof. intros H H'. apply description_step in H. apply description_step in H'. congruence. Qed.

Lemma names_tag_match d tag num hex : names_tag d tag num hex <-> match_describe d = Some (tag, num, hex).
Proof.
  split.
  - intros [H (tail & Ht & ->)]. now apply match_describe_complete.
  - intros H. apply match_describe_sound in H. exact H.
Qed.

Lemma marked_dirty_ends out : marked_dirty out <-> ends_with (T "-dirty") (strip (bstrip out)) = true.
Proof. split; [intros [d E]; apply ends_with_iff; now exists d|intros E; apply ends_with_iff in E; exact E]. Qed.

Lemma keywords_unexpanded : git_versions_from_keywords repo_keywords cfg_tag_prefix = VRaise NotThisMethod.
Proof. vm_compute. reflexivity. Qed.

(** * Theorems *)

(** No git, no repository, or no commit: nothing is known. *)
Theorem C85_no_git : forall file g,
  g_dir g = None \/ g_describe g = None \/ g_head g = None ->
  get_versions repo_keywords (Some file) g
  = VOk (Versions (T "0+unknown") None None (Some (T "unable to compute version")) None).
Proof.
  intros file g H. unfold get_versions, get_versions_with. rewrite keywords_unexpanded. cbn [otherwise].
  assert (E : git_pieces_from_vcs cfg_tag_prefix g = VRaise NotThisMethod).
  { unfold git_pieces_from_vcs, run. destruct (g_dir g); [|reflexivity]. cbn [option_map].
    destruct (g_describe g); [|reflexivity]. cbn [option_map]. destruct (g_head g); [|reflexivity].
    destruct H as [H|[H|H]]; discriminate. }
  rewrite E. reflexivity.
Qed.

(** An interpreter without __file__. *)
Theorem C85_no_file : forall g,
  get_versions repo_keywords None g
  = VOk (Versions (T "0+unknown") None None (Some (T "unable to find root of source tree")) None).
Proof. intros g. unfold get_versions, get_versions_with. now rewrite keywords_unexpanded. Qed.

(** A description that cannot be understood: the revision is reported with the
    reason, quoting what git printed or the tag. *)
Theorem C85_not_understood : forall file g dir out head d,
  g_dir g = Some dir -> g_describe g = Some out -> g_head g = Some head ->
  description out d -> ~ understood d ->
  exists reason,
    get_versions repo_keywords (Some file) g
    = VOk (Versions (T "unknown") (Some (strip (bstrip head))) None (Some reason) None)
    /\ ((exists tag num hex, names_tag d tag num hex /\ reason = T "tag '" ++ tag ++ T "' doesn't start with prefix 'v'")
        \/ ((forall tag num hex, ~ names_tag d tag num hex)
            /\ reason = T "unable to parse git-describe output: '" ++ strip (bstrip out) ++ T "'")).
Proof.
  intros file g dir out head d E1 E2 E3 Hd Hu.
  unfold get_versions, get_versions_with. rewrite keywords_unexpanded. cbn [otherwise].
  unfold git_pieces_from_vcs, run. rewrite E1, E2, E3. cbn [option_map]. cbv zeta.
  rewrite (description_step _ _ Hd). cbn [vbind].
  assert (Hd2 : has_char "-" d = true).
  { apply has_char_iff. destruct (in_dec ascii_dec "-"%char d) as [H|H]; [exact H|]. exfalso. apply Hu. now left. }
  rewrite Hd2. destruct (match_describe d) as [[[tag num] hex]|] eqn:Em.
  - destruct (starts_with cfg_tag_prefix tag) eqn:Ep.
    { exfalso. apply Hu. right. apply starts_with_iff in Ep. destruct Ep as [r ->]. exists r, num, hex.
      now apply names_tag_match. }
    eexists. split; [reflexivity|]. left. exists tag, num, hex. split; [now apply names_tag_match|reflexivity].
  - eexists. split; [reflexivity|]. right. split; [|reflexivity].
    intros tag num hex H. apply names_tag_match in H. congruence.
Qed.

(** The dictionary has no error exactly if git answers and the description can be
    understood; then it tells the revision, whether there are uncommitted changes,
    and a date. *)
Theorem C85_no_error_exactly : forall file g v,
  get_versions repo_keywords file g = VOk v ->
  (v_error v = None <-> file <> None /\ g_dir g <> None /\ g_head g <> None
     /\ exists out d, g_describe g = Some out /\ description out d /\ understood d)
  /\ (v_error v = None -> exists out head show b,
        g_describe g = Some out /\ g_head g = Some head /\ g_show g = Some show
        /\ v_full v = Some (strip (bstrip head))
        /\ v_dirty v = Some b /\ (b = true <-> marked_dirty out)
        /\ v_date v = Some (iso_date (strip (bstrip show)))).
Proof.
  intros file g v E. destruct file as [file|].
  2:{ rewrite C85_no_file in E. injection E as <-. cbn [v_error]. split; [|discriminate].
      split; [discriminate|]. intros [H _]. congruence. }
  destruct (g_dir g) as [dir|] eqn:E1.
  2:{ rewrite C85_no_git in E by auto. injection E as <-. cbn [v_error]. split; [|discriminate].
      split; [discriminate|]. intros (_ & H & _). congruence. }
  destruct (g_head g) as [head|] eqn:E3.
  2:{ rewrite C85_no_git in E by auto. injection E as <-. cbn [v_error]. split; [|discriminate].
      split; [discriminate|]. intros (_ & _ & H & _). congruence. }
  destruct (g_describe g) as [out|] eqn:E2.
  2:{ rewrite C85_no_git in E by auto. injection E as <-. cbn [v_error]. split; [|discriminate].
      split; [discriminate|]. intros (_ & _ & _ & o & d & H & _). congruence. }
  destruct (description_exists out) as [d Hd].
  assert (U : understood d \/ ~ understood d).
  { unfold understood. destruct (in_dec ascii_dec "-"%char d) as [H|H]; [|now left; left].
    destruct (match_describe d) as [[[tag num] hex]|] eqn:Em.
    - destruct (starts_with (T "v") tag) eqn:Ep.
      + apply starts_with_iff in Ep. destruct Ep as [r ->]. left. right. exists r, num, hex. now apply names_tag_match.
      + right. intros [H'|(t & n & h & H')]; [contradiction|]. apply names_tag_match in H'. rewrite Em in H'.
        injection H' as Ht _ _. subst tag. pose proof (starts_with_app (T "v") t) as Y. exact (diff_true_false (eq_trans (eq_sym Y) Ep)).
    - right. intros [H'|(t & n & h & H')]; [contradiction|]. apply names_tag_match in H'. congruence. }
  destruct U as [U|U].
  2:{ destruct (C85_not_understood file g dir out head d E1 E2 E3 Hd U) as (r & Er & _). rewrite Er in E.
      injection E as <-. cbn [v_error]. split; [|discriminate]. split; [discriminate|].
      intros (_ & _ & _ & o & d' & Eo & Hd' & U'). injection Eo as <-.
      now rewrite (description_unique _ _ _ Hd Hd') in U. }
  assert (X : v_error v = None /\ exists show, g_show g = Some show
        /\ v_full v = Some (strip (bstrip head))
        /\ v_dirty v = Some (ends_with (T "-dirty") (strip (bstrip out)))
        /\ v_date v = Some (iso_date (strip (bstrip show)))).
  { unfold get_versions, get_versions_with in E. rewrite keywords_unexpanded in E. cbn [otherwise] in E.
    unfold git_pieces_from_vcs, run in E. rewrite E1, E2, E3 in E. cbn [option_map] in E. cbv zeta in E.
    rewrite (description_step _ _ Hd) in E. cbn [vbind] in E.
    destruct (has_char "-" d) eqn:Hc.
    - apply has_char_iff in Hc. destruct U as [U|(tag & num & hex & U)]; [contradiction|].
      pose proof U as [(_ & _ & M1 & M2 & _) _]. apply names_tag_match in U. rewrite U in E.
      change cfg_tag_prefix with (T "v") in E. rewrite starts_with_app in E.
      destruct (nat_of_text_digits num M1 M2) as [m Em]. rewrite Em in E.
      destruct (g_show g) as [show|]; cbn [option_map vbind otherwise] in E; [|discriminate].
      cbn in E. injection E as <-. split; [reflexivity|]. exists show. auto.
    - destruct (g_count g) as [c|]; cbn [option_map vbind otherwise] in E; [|discriminate].
      destruct (int_of_text (bstrip c)) as [n|x] eqn:Ei; cbn [vbind] in E.
      + destruct (g_show g) as [show|]; cbn [option_map vbind otherwise] in E; [|discriminate].
        cbn in E. injection E as <-. split; [reflexivity|]. exists show. auto.
      + unfold int_of_text in Ei. destruct (strip (bstrip c)) as [|a r]; [injection Ei as <-; discriminate|].
        destruct (if Ascii.eqb a "-" then _ else _) as [sign ds].
        destruct (nat_of_text ds); [discriminate|injection Ei as <-; discriminate]. }
  destruct X as (Xe & show & Xs & Xf & Xd & Xt). split.
  - split; [|auto]. intros _. repeat split; try discriminate. exists out, d. auto.
  - intros _. exists out, head, show, (ends_with (T "-dirty") (strip (bstrip out))).
    repeat split; try assumption; apply marked_dirty_ends.
Qed.

(** git is asked in the directory the package directory is in, whatever git says
    about other directories, and the name of this directory is the one the parent
    directory fallback starts with. *)
Theorem C85_root : forall parent_prefix k top name gits,
  path_name name ->
  let root := top ++ T "/" ++ name in
  get_versions_at parent_prefix k (Some (root ++ T "/gcs/_version.py")) gits
  = otherwise (git_versions_from_keywords k (T "v"))
     (otherwise (vbind (git_pieces_from_vcs (T "v") (gits root)) (fun p => render p (T "pep440")))
       (otherwise (match parent_prefix with [] => VRaise NotThisMethod | _ => versions_from_parentdir parent_prefix root end)
         (VOk (Versions (T "0+unknown") None None (Some (T "unable to compute version")) None)))).
Proof.
  intros pp k top name gits Hn root. unfold get_versions_at, get_versions_with.
  assert (E : source_root (root ++ T "/gcs/_version.py") = root).
  { unfold source_root. change (split_on "/" cfg_versionfile_source) with [T "gcs"; T "_version.py"].
    cbn [fold_left]. subst root.
    assert (P : path_name (T "gcs")) by (split; [discriminate|cbn; intuition discriminate]).
    change (T "/gcs/_version.py") with (T "/" ++ T "gcs" ++ T "/" ++ T "_version.py").
    rewrite dirname_app; [|exact P|cbn; intuition discriminate].
    rewrite <- !app_assoc. apply dirname_app; [exact Hn|apply P]. }
  rewrite E. reflexivity.
Qed.

(** Importing the package from a directory named after the release, without git,
    where a parent directory prefix is configured. *)
Theorem C85_unpacked : forall top prefix version gits,
  path_name (prefix ++ version) -> prefix <> [] ->
  g_dir (gits (top ++ T "/" ++ prefix ++ version)) = None ->
  get_versions_at prefix repo_keywords (Some (top ++ T "/" ++ prefix ++ version ++ T "/gcs/_version.py")) gits
  = VOk (Versions version None (Some false) None None).
Proof.
  intros top prefix version gits Hp Hne Hg.
  replace (top ++ T "/" ++ prefix ++ version ++ T "/gcs/_version.py")
    with ((top ++ T "/" ++ (prefix ++ version)) ++ T "/gcs/_version.py") by now rewrite <- !app_assoc.
  pose proof (C85_root prefix repo_keywords top (prefix ++ version) gits Hp) as R. cbv zeta in R. rewrite R. clear R.
  change (T "v") with cfg_tag_prefix. rewrite keywords_unexpanded. cbn [otherwise].
  unfold git_pieces_from_vcs, run. rewrite Hg. cbn [option_map vbind otherwise].
  destruct prefix as [|c r]; [congruence|]. unfold versions_from_parentdir. cbn [parentdir_loop].
  rewrite basename_app by apply Hp. rewrite starts_with_app, skipn_app_len. reflexivity.
Qed.
Print Assumptions C85_no_git.
Print Assumptions C85_no_file.
Print Assumptions C85_not_understood.
Print Assumptions C85_no_error_exactly.
Print Assumptions C85_root.
Print Assumptions C85_unpacked.

(** A release branch tagged without the prefix, with local changes. *)
Example C85_case_tag :
  let g := Git (Some (T ".git")) (Some (T "release-3-0-gabc-dirty")) (Some (T "abcdef")) None None in
  get_versions repo_keywords (Some (T "/x/gcs/_version.py")) g
  = VOk (Versions (T "unknown") (Some (T "abcdef")) None (Some (T "tag 'release-3' doesn't start with prefix 'v'")) None)
  /\ description (T "release-3-0-gabc-dirty") (T "release-3-0-gabc")
  /\ names_tag (T "release-3-0-gabc") (T "release-3") (T "0") (T "abc").
Proof.
  split; [vm_compute; reflexivity|]. split; [left; vm_compute; reflexivity|].
  apply names_tag_match. vm_compute. reflexivity.
Qed.

(** A checkout inside another one: the inner one counts. *)
Example C85_case_root :
  let repo t := Git (Some (T ".git")) (Some t) (Some (T "abcdef")) (Some (T "5")) (Some (T "2020-01-01 10:11:12 +0200")) in
  let gits dir := if text_eqb dir (T "/src/gcs") then repo (T "v2.0-0-gabc") else repo (T "v1.0-0-gdef") in
  (match get_versions_at [] repo_keywords (Some (T "/src/gcs/gcs/_version.py")) gits with VOk v => Some (v_version v) | _ => None end)
  = Some (T "2.0") /\ path_name (T "gcs").
Proof. split; [vm_compute; reflexivity|]. split; [discriminate|]. cbn. intuition discriminate. Qed.

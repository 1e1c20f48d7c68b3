(** C105: python PATH/versioneer.py setup, as a command. *)
From Coq Require Import NArith ZArith String Ascii Bool Arith Lia List.
From Verif Require Import Version VersionFacts PropVersion Versioneer PropDist PropDict Setup PropSetup Project PropConfig PropProject Install.
Import ListNotations.
Open Scope list_scope.

(** * Paths *)
Lemma abs_inj a b : Forall name a -> Forall name b -> abs a = abs b -> a = b.
Proof.
  intros Ha Hb E. unfold abs in E. apply app_inv_head in E.
  assert (N : forall l, Forall name l -> l <> [] -> split_on "/" (join (T "/") l) = l).
  { intros l Hl Hne. apply split_join; [exact Hne|]. eapply Forall_impl; [|exact Hl]. now intros c [[_ H] _]. }
  assert (M : forall l, Forall name l -> join (T "/") l = [] -> l = []).
  { intros l Hl El. destruct Hl as [|x l Hx Hl]; [reflexivity|]. destruct Hx as [[Hn _] _].
    destruct l; cbn [join] in El; [congruence|]. apply app_eq_nil in El. now destruct El. }
  destruct a as [|x a].
  - symmetry in E. now rewrite (M b Hb E).
  - destruct b as [|y b]; [now apply (M (x :: a) Ha)|].
    rewrite <- (N (x :: a) Ha ltac:(discriminate)), <- (N (y :: b) Hb ltac:(discriminate)). now rewrite E.
Qed.
Lemma file_in_inj a f b g : Forall name a -> name f -> Forall name b -> name g -> file_in a f = file_in b g -> a = b /\ f = g.
Proof.
  intros Ha Hf Hb Hg E. apply abs_inj in E; [|apply Forall_app; auto..]. now apply app_inj_tail in E.
Qed.
Lemma dirname_file dir f : Forall name dir -> name f -> dirname (file_in dir f) = abs dir.
Proof. apply dirname_abs. Qed.
Lemma dirname_snoc s x c : x <> "/"%char -> ~ In "/"%char c -> dirname ((s ++ [x]) ++ T "/" ++ c) = s ++ [x].
Proof.
  intros Hx Hc. unfold dirname. rewrite basename_app by exact Hc.
  replace (length ((s ++ [x]) ++ T "/" ++ c) - length c) with (length ((s ++ [x]) ++ T "/"))
    by (rewrite app_assoc, (app_length (_ ++ T "/") c); lia).
  rewrite app_assoc, firstn_app_len. rewrite rev_app_distr. change (rev (T "/")) with (T "/").
  change (T "/" ++ rev (s ++ [x])) with ("/"%char :: rev (s ++ [x])).
  rewrite rev_app_distr. cbn [rev app lstrip_by]. change (Ascii.eqb "/" "/") with true. cbn iota.
  assert (E : Ascii.eqb "/" x = false) by (apply Ascii.eqb_neq; congruence). rewrite E.
  change (x :: rev s) with ([x] ++ rev s). rewrite rev_app_distr, rev_involutive. cbn [rev app].
  destruct (s ++ [x]) eqn:E2; [now destruct s|reflexivity].
Qed.
Lemma join_end pkg : Forall name pkg -> pkg <> [] -> exists s x, join (T "/") pkg = s ++ [x] /\ x <> "/"%char.
Proof.
  intros H Hne. destruct (rev_abs pkg H Hne) as (x & r & E & Hx). unfold abs in E.
  apply (f_equal (@rev ascii)) in E. rewrite rev_involutive in E. cbn [rev] in E.
  destruct (rev r) as [|y s] eqn:Er.
  - cbn in E. injection E as E. apply Ascii.eqb_neq in Hx. exfalso. now apply Hx.
  - cbn in E. injection E as _ E. exists s, x. split; [exact E|]. now apply Ascii.eqb_neq.
Qed.
(** The __init__.py next to a file. *)
Lemma next_to pkg f g : Forall name pkg -> name f -> name g ->
  path_join (dirname (join (T "/") (pkg ++ [f]))) g = join (T "/") (pkg ++ [g]).
Proof.
  intros Hp Hf Hg. assert (Sg : starts_with (T "/") g = false).
  { apply (relative [g]); [discriminate|]. constructor; [apply Hg|constructor]. }
  destruct pkg as [|b pkg].
  - cbn [app join]. assert (E : dirname f = []).
    { unfold dirname. assert (B : basename f = f).
      { pose proof (basename_app [] f (proj2 (proj1 Hf))) as B. cbn [app] in B. unfold basename in *. cbn [last_component] in B.
        change (T "/" ++ f) with ("/"%char :: f) in B. exact B. }
      rewrite B, Nat.sub_diag. reflexivity. }
    rewrite E. unfold path_join. rewrite Sg. reflexivity.
  - rewrite !join_snoc by discriminate. destruct (join_end (b :: pkg) Hp ltac:(discriminate)) as (s & x & E & Hx).
    rewrite E, dirname_snoc; [|exact Hx|apply Hf]. unfold path_join. rewrite Sg, rev_app_distr. cbn [rev app].
    apply Ascii.eqb_neq in Hx. now rewrite Hx.
Qed.
Lemma at_relative p dir pkg f : cwd p = abs dir -> Forall name dir -> Forall name pkg -> name f ->
  at_path p (join (T "/") (pkg ++ [f])) = file_in (dir ++ pkg) f.
Proof.
  intros E Hd Hp Hf. unfold at_path. rewrite E.
  assert (Hpf : Forall name (pkg ++ [f])) by (apply Forall_app; auto).
  rewrite abspath_relative; [|exact Hd|now destruct pkg|eapply Forall_impl; [|exact Hpf]; now intros c [Hc _]].
  unfold file_in. f_equal. rewrite walk_snoc by exact Hf. f_equal.
  clear Hpf Hf f E. revert dir Hd. induction Hp as [|c pkg Hc _ IH]; intros dir Hd; [cbn; now rewrite app_nil_r|].
  cbn [walk fold_left]. unfold step at 2. destruct (name_eqb c Hc) as (-> & -> & _). fold (walk (dir ++ [c]) pkg).
  rewrite IH; [now rewrite <- app_assoc|]. apply Forall_app. auto.
Qed.
Lemma at_file p dir f : cwd p = abs dir -> Forall name dir -> name f -> at_path p f = file_in dir f.
Proof. intros E Hd Hf. pose proof (at_relative p dir [] f E Hd ltac:(constructor) Hf) as X. now rewrite app_nil_r in X. Qed.
Lemma at_absolute p dir f : Forall name dir -> name f -> at_path p (path_join (abs dir) f) = file_in dir f.
Proof.
  intros Hd Hf. rewrite join_file by assumption. apply abspath_absolute. apply Forall_app. auto.
Qed.

(** * The parts *)
Lemma stored f c d : d_file (store f c d) f = Some c.
Proof. cbn. now rewrite text_eqb_refl. Qed.
Lemma stored_other f c d g : g <> f -> d_file (store f c d) g = d_file d g.
Proof. intros H. cbn. apply text_eqb_neq in H. now rewrite H. Qed.
(** Nothing but the file [f] has changed. *)
Definition only (f : text) (d d' : disk) : Prop := d_git d' = d_git d /\ forall g, g <> f -> d_file d' g = d_file d g.
Lemma only_refl f d : only f d d.
Proof. now split. Qed.
Lemma only_store f c d : only f d (store f c d).
Proof. split; [reflexivity|]. intros g. apply stored_other. Qed.
Lemma only_trans f d1 d2 d3 : only f d1 d2 -> only f d2 d3 -> only f d1 d3.
Proof. intros [A B] [C D]. split; [congruence|]. intros g Hg. rewrite D, B by exact Hg. reflexivity. Qed.

Section Parts.
Variable is_dir : text -> bool.
Variable p : process.
Lemma append_at path s d f : at_path p path = f -> is_dir (dirname f) = true ->
  append_to is_dir p path s d = (store f (contents (d_file d f) ++ s) d, POk tt).
Proof. intros <- H. unfold append_to. now rewrite H. Qed.
Lemma init_at source d f : at_path p (path_join (dirname source) (T "__init__.py")) = f -> is_dir (dirname f) = true ->
  exists d', run_init is_dir p source d = (d', POk tt) /\ d_file d' f = setup_init (d_file d f) /\ only f d d'.
Proof.
  intros E H. unfold run_init, andthen, read_file, ret. rewrite E. unfold setup_init.
  destruct (d_file d f) as [old|] eqn:Ef; [|exists d; rewrite Ef; auto using only_refl].
  destruct (contains init_snippet (universal old)) eqn:Ec; [exists d; rewrite Ef; auto using only_refl|].
  rewrite (append_at _ _ _ _ E H), Ef. eexists. split; [reflexivity|]. split; [apply stored|apply only_store].
Qed.
Lemma manifest_at root source d f : at_path p (path_join root (T "MANIFEST.in")) = f -> is_dir (dirname f) = true ->
  exists d', run_manifest is_dir p root source d = (d', POk tt)
  /\ d_file d' f = setup_manifest source (d_file d f) /\ only f d d'.
Proof.
  intros E H. unfold run_manifest, andthen, read_file, ret. rewrite E. unfold setup_manifest.
  destruct (mem (T "versioneer.py") (simple_includes (contents (d_file d f)))) eqn:E1,
    (mem source (simple_includes (contents (d_file d f)))) eqn:E2;
    rewrite ?(append_at _ _ _ _ E H); (eexists; split; [reflexivity|]).
  - split; [|apply only_refl]. destruct (d_file d f); [cbn [contents app]; now rewrite app_nil_r|reflexivity].
  - split; [|apply only_store]. rewrite stored. cbn [app]. now destruct (d_file d f).
  - split; [|apply only_store]. rewrite stored, app_nil_r. now destruct (d_file d f).
  - split; [|eapply only_trans; apply only_store]. rewrite !stored. cbn [contents]. rewrite <- !app_assoc.
    now destruct (d_file d f).
Qed.
Lemma attributes_at source d f : at_path p (T ".gitattributes") = f -> is_dir (dirname f) = true ->
  exists d', run_attributes is_dir p source d = (d', POk tt)
  /\ d_file d' f = setup_attributes source (d_file d f) /\ only f d d'.
Proof.
  intros E H. unfold run_attributes, andthen, read_file, ret. rewrite E. unfold setup_attributes.
  destruct (existsb (marks_line source) (lines (universal (contents (d_file d f))))); [exists d; auto using only_refl|].
  rewrite (append_at _ _ _ _ E H). eexists. split; [reflexivity|]. split; [apply stored|apply only_store].
Qed.
End Parts.

(** * Specification *)

(** setup.cfg asks for git and for the version file PKG/FILE, a relative path. *)
Definition complete (d : disk) (root : list text) (c : config) (pkg : list text) (file : text) : Prop :=
  get_config (d_file d (file_in root (T "setup.cfg"))) = POk c /\ c_VCS c = T "git"
  /\ c_source c = Some (join (T "/") (pkg ++ [file])) /\ Forall name pkg /\ name file /\ file <> T "__init__.py".
(** The files of a project: those of the package in [dir], MANIFEST.in in [root]. *)
Definition files (dir root pkg : list text) (file : text) : list text :=
  [file_in (dir ++ pkg) file; file_in (dir ++ pkg) (T "__init__.py"); file_in root (T "MANIFEST.in");
   file_in dir (T ".gitattributes")].
Definition tree_in (d : disk) (dir root pkg : list text) (file : text) : tree :=
  Tree (d_file d (file_in (dir ++ pkg) file)) (d_file d (file_in (dir ++ pkg) (T "__init__.py")))
       (d_file d (file_in root (T "MANIFEST.in"))) (d_file d (file_in dir (T ".gitattributes"))).

Lemma ok_andthen {A B} (m : action A) (f : A -> action B) d d' a : m d = (d', POk a) -> andthen m f d = f a d'.
Proof. unfold andthen. now intros ->. Qed.

Section Run.
Variables (is_dir : text -> bool) (template : config -> text) (d : disk) (p : process).
Variables (dir root pkg : list text) (file : text) (c : config).
Hypothesis Hdir : Forall name dir.
Hypothesis Hcwd : cwd p = abs dir.
Hypothesis Hroot : Forall name root.
Hypothesis Hget : get_root d p = POk (abs root).
Hypothesis Hc : complete d root c pkg file.
Lemma setup_opened :
  run_setup is_dir template p d
  = let source := join (T "/") (pkg ++ [file]) in
    andthen (open_new is_dir p source) (fun _ =>
          andthen (append_to is_dir p source (template c)) (fun _ =>
               andthen (run_init is_dir p source) (fun _ =>
               andthen (run_manifest is_dir p (abs root) source) (fun _ =>
               andthen (run_attributes is_dir p source) (fun _ => ret 0))))) d.
Proof.
  destruct Hc as (Ec & Ev & Es & Hp & Hf & Hi). unfold run_setup.
  rewrite (ok_andthen _ _ d d (abs root)) by now rewrite Hget.
  rewrite (ok_andthen _ _ d d (d_file d (file_in root (T "setup.cfg")))).
  2:{ unfold read_file. now rewrite at_absolute by first [exact Hroot|known]. }
  rewrite Ec, Es, Ev. destruct (join (T "/") (pkg ++ [file])) as [|x t] eqn:E; [|reflexivity]. exfalso.
  assert (X : abs (pkg ++ [file]) = abs []) by (unfold abs; now rewrite E).
  apply abs_inj in X; [now destruct pkg|apply Forall_app; auto|constructor].
Qed.
Lemma setup_run :
  is_dir (abs (dir ++ pkg)) = true -> is_dir (abs dir) = true -> is_dir (abs root) = true ->
  file_in (dir ++ pkg) file <> file_in root (T "MANIFEST.in") ->
  file_in (dir ++ pkg) file <> file_in dir (T ".gitattributes") ->
  exists d', run_setup is_dir template p d = (d', POk 0)
  /\ tree_in d' dir root pkg file = do_setup (template c) (join (T "/") (pkg ++ [file])) (tree_in d dir root pkg file)
  /\ d_git d' = d_git d /\ forall f, ~ In f (files dir root pkg file) -> d_file d' f = d_file d f.
Proof.
  intros D1 D2 D3 N1 N2. pose proof Hc as (Ec & Ev & Es & Hp & Hf & Hi). rewrite setup_opened. cbv zeta.
  set (source := join (T "/") (pkg ++ [file])).
  assert (Hdp : Forall name (dir ++ pkg)) by (apply Forall_app; auto).
  set (V := file_in (dir ++ pkg) file) in *. set (I := file_in (dir ++ pkg) (T "__init__.py")).
  set (M := file_in root (T "MANIFEST.in")) in *. set (G := file_in dir (T ".gitattributes")) in *.
  assert (EV : at_path p source = V) by now apply at_relative.
  assert (EI : at_path p (path_join (dirname source) (T "__init__.py")) = I).
  { unfold source. rewrite next_to by first [assumption|known]. apply at_relative; first [assumption|known]. }
  assert (EM : at_path p (path_join (abs root) (T "MANIFEST.in")) = M) by (apply at_absolute; [exact Hroot|known]).
  assert (EG : at_path p (T ".gitattributes") = G) by (apply at_file; first [assumption|known]).
  assert (N3 : V <> I) by (intros E; apply file_in_inj in E as [_ E]; first [assumption|known|congruence]).
  assert (N4 : I <> M) by (intros E; apply file_in_inj in E as [_ E]; first [assumption|known|discriminate]).
  assert (N5 : I <> G) by (intros E; apply file_in_inj in E as [_ E]; first [assumption|known|discriminate]).
  assert (N6 : M <> G) by (intros E; apply file_in_inj in E as [_ E]; first [assumption|known|discriminate]).
  assert (DV : is_dir (dirname V) = true) by (unfold V; now rewrite dirname_file).
  assert (DI : is_dir (dirname I) = true) by (unfold I; rewrite dirname_file; first [assumption|known]).
  assert (DM : is_dir (dirname M) = true) by (unfold M; rewrite dirname_file; first [assumption|known]).
  assert (DG : is_dir (dirname G) = true) by (unfold G; rewrite dirname_file; first [assumption|known]).
  assert (O : open_new is_dir p source d = (store V [] d, POk tt)).
  { unfold open_new. now rewrite EV, DV. }
  rewrite (ok_andthen _ _ _ _ _ O). rewrite (ok_andthen _ _ _ _ _ (append_at is_dir p _ _ _ _ EV DV)).
  rewrite stored. cbn [contents app]. set (d1 := store V (template c) (store V [] d)).
  assert (F1 : only V d d1) by (eapply only_trans; apply only_store).
  assert (V1 : d_file d1 V = Some (template c)) by apply stored. clearbody d1.
  destruct (init_at is_dir p source d1 I EI DI) as (d2 & R2 & I2 & F2). rewrite (ok_andthen _ _ _ _ _ R2).
  destruct (manifest_at is_dir p (abs root) source d2 M EM DM) as (d3 & R3 & M3 & F3). rewrite (ok_andthen _ _ _ _ _ R3).
  destruct (attributes_at is_dir p source d3 G EG DG) as (d4 & R4 & G4 & F4). rewrite (ok_andthen _ _ _ _ _ R4).
  destruct F1 as [g1 F1], F2 as [g2 F2], F3 as [g3 F3], F4 as [g4 F4].
  exists d4. split; [reflexivity|]. split; [|split; [congruence|]].
  - unfold tree_in, do_setup. fold V I M G. cbn [init_py manifest_in gitattributes].
    rewrite (F4 V), (F3 V), (F2 V), V1 by congruence.
    rewrite (F4 I), (F3 I), I2, (F1 I) by congruence.
    rewrite (F4 M), M3, (F2 M), (F1 M) by congruence.
    rewrite G4, (F3 G), (F2 G), (F1 G) by congruence. reflexivity.
  - unfold files. fold V I M G. intros f Hn. cbn [In] in Hn.
    rewrite F4, F3, F2, F1; [reflexivity|intros ->; tauto..].
Qed.
End Run.

Lemma scan_at p d dir : Forall name dir -> cwd p = abs dir ->
  run_scan p d = (d, match d_file d (file_in dir (T "setup.py")) with None => PRaise NoSuchFile | Some c => POk (scan_setup_py c) end).
Proof.
  intros Hd Hc. unfold run_scan, andthen, read_file. rewrite (at_file p dir) by first [assumption|known].
  now destruct (d_file d (file_in dir (T "setup.py"))).
Qed.
Lemma home_root d p dir : Forall name dir -> cwd p = abs dir -> project_in d dir -> get_root d p = POk (abs dir).
Proof.
  intros Hd Hc Hp. unfold get_root. rewrite Hc, abspath_absolute by exact Hd.
  assert (E : is_project d (abs dir) = true); [|now rewrite E].
  unfold is_project, exists_file. rewrite !join_file by first [exact Hd|known]. apply orb_true_iff.
  destruct Hp as [H|H]; [left|right]; now destruct (d_file d _).
Qed.

(** * C105 *)

(** Partial: the working directory is the project.  Started there, the version file, __init__.py, MANIFEST.in and
    .gitattributes of this project become what do_setup makes of their contents
    (C77 and C82 say what that is), no other file changes, and the exit status is 0
    exactly if setup.py has all that is needed. *)
Theorem C105_at_home_partial is_dir template d p dir pkg file c sp :
  Forall name dir -> cwd p = abs dir -> d_file d (file_in dir (T "setup.py")) = Some sp ->
  complete d dir c pkg file -> is_dir (abs (dir ++ pkg)) = true -> is_dir (abs dir) = true ->
  (pkg = [] -> ~ In file [T "MANIFEST.in"; T ".gitattributes"; T "setup.py"]) ->
  exists d', main is_dir template p (Some (T "setup")) d = (d', POk (if scan_setup_py sp =? 0 then 0 else 1))
  /\ tree_in d' dir dir pkg file = do_setup (template c) (join (T "/") (pkg ++ [file])) (tree_in d dir dir pkg file)
  /\ d_git d' = d_git d /\ forall f, ~ In f (files dir dir pkg file) -> d_file d' f = d_file d f.
Proof.
  intros Hd Hcwd Hsp Hc D1 D2 Hn. pose proof Hc as (_ & _ & _ & Hp & Hf & Hi).
  assert (Hdp : Forall name (dir ++ pkg)) by (apply Forall_app; auto).
  assert (N : forall g, name g -> In g [T "MANIFEST.in"; T ".gitattributes"; T "setup.py"] -> file_in (dir ++ pkg) file <> file_in dir g).
  { intros g Hg Hin E. apply file_in_inj in E as [E1 E2]; [|assumption..]. subst g.
    rewrite <- (app_nil_r dir) in E1 at 2. apply app_inv_head in E1. now apply Hn in Hin. }
  assert (G : get_root d p = POk (abs dir)) by (apply home_root; [assumption..|left; congruence]).
  destruct (setup_run is_dir template d p dir dir pkg file c Hd Hcwd Hd G Hc D1 D2 D2) as (d' & R & T' & Gt & F).
  { apply N; [known|cbn; auto]. }
  { apply N; [known|cbn; auto]. }
  exists d'. split; [|auto]. unfold main. change (text_eqb (T "setup") (T "setup")) with true. cbn iota.
  rewrite (ok_andthen _ _ _ _ _ R). assert (S : run_scan p d' = (d', POk (scan_setup_py sp))).
  { rewrite (scan_at p d' dir) by assumption. rewrite F, Hsp; [reflexivity|]. cbn [files In].
    intros [E|[E|[E|[E|[]]]]].
    - revert E. apply N; [known|cbn; auto].
    - apply file_in_inj in E as [_ E]; first [assumption|known|discriminate].
    - apply file_in_inj in E as [_ E]; first [assumption|known|discriminate].
    - apply file_in_inj in E as [_ E]; first [assumption|known|discriminate]. }
  rewrite (ok_andthen _ _ _ _ _ S). reflexivity.
Qed.
Print Assumptions C105_at_home_partial.

(** Without the section [versioneer] the sample is added to setup.cfg, without VCS
    nothing changes; the exit status is 1. *)
Theorem C105_incomplete is_dir template d p dir e :
  Forall name dir -> cwd p = abs dir -> d_file d (file_in dir (T "setup.py")) <> None -> is_dir (abs dir) = true ->
  get_config (d_file d (file_in dir (T "setup.cfg"))) = PRaise e -> e = NoSuchFile \/ e = NoSection \/ e = NoOption ->
  exists d', main is_dir template p (Some (T "setup")) d = (d', POk 1) /\ d_git d' = d_git d
  /\ (forall f, f <> file_in dir (T "setup.cfg") -> d_file d' f = d_file d f)
  /\ d_file d' (file_in dir (T "setup.cfg"))
     = if match e with NoOption => true | _ => false end then d_file d (file_in dir (T "setup.cfg"))
       else Some (contents (d_file d (file_in dir (T "setup.cfg"))) ++ sample_config).
Proof.
  intros Hd Hcwd Hsp D Ec He. assert (G : get_root d p = POk (abs dir)) by (apply home_root; [assumption..|now left]).
  set (C := file_in dir (T "setup.cfg")) in *.
  assert (EC : at_path p (path_join (abs dir) (T "setup.cfg")) = C) by (apply at_absolute; [exact Hd|known]).
  assert (DC : is_dir (dirname C) = true) by (unfold C; rewrite dirname_file; first [assumption|known]).
  assert (R : exists d', run_setup is_dir template p d = (d', POk 1) /\ only C d d'
    /\ d_file d' C = if match e with NoOption => true | _ => false end then d_file d C else Some (contents (d_file d C) ++ sample_config)).
  { unfold run_setup. rewrite (ok_andthen _ _ d d (abs dir)) by now rewrite G.
    rewrite (ok_andthen _ _ d d (d_file d C)) by (unfold read_file; now rewrite EC). rewrite Ec.
    destruct He as [->|[->| ->]]; cbn iota.
    - rewrite (ok_andthen _ _ _ _ _ (append_at is_dir p _ _ _ _ EC DC)). eexists. split; [reflexivity|].
      split; [apply only_store|apply stored].
    - rewrite (ok_andthen _ _ _ _ _ (append_at is_dir p _ _ _ _ EC DC)). eexists. split; [reflexivity|].
      split; [apply only_store|apply stored].
    - exists d. split; [reflexivity|]. split; [apply only_refl|reflexivity]. }
  destruct R as (d' & R & [Gt F] & V). exists d'. split; [|auto].
  unfold main. change (text_eqb (T "setup") (T "setup")) with true. cbn iota. rewrite (ok_andthen _ _ _ _ _ R).
  destruct (d_file d (file_in dir (T "setup.py"))) as [sp|] eqn:Es; [|congruence].
  assert (S : run_scan p d' = (d', POk (scan_setup_py sp))).
  { rewrite (scan_at p d' dir) by assumption. rewrite F, Es; [reflexivity|]. intros E.
    apply file_in_inj in E as [_ E]; first [assumption|known|discriminate]. }
  rewrite (ok_andthen _ _ _ _ _ S). reflexivity.
Qed.
Print Assumptions C105_incomplete.

(** Started in a directory that is no project, for the project of the script: the
    version file, __init__.py and .gitattributes of the working directory change
    and MANIFEST.in of the project, setup.py is not found, and the program fails. *)
Theorem C105_elsewhere is_dir template d p dir src script pkg file c :
  Forall name dir -> cwd p = abs dir -> ~ project_in d dir -> started p src script -> project_in d src ->
  complete d src c pkg file -> is_dir (abs (dir ++ pkg)) = true -> is_dir (abs dir) = true -> is_dir (abs src) = true ->
  (pkg = [] -> ~ In file [T "MANIFEST.in"; T ".gitattributes"; T "setup.py"]) ->
  file_in (dir ++ pkg) file <> file_in src (T "MANIFEST.in") ->
  exists d', main is_dir template p (Some (T "setup")) d = (d', PRaise NoSuchFile)
  /\ tree_in d' dir src pkg file = do_setup (template c) (join (T "/") (pkg ++ [file])) (tree_in d dir src pkg file)
  /\ d_git d' = d_git d /\ forall f, ~ In f (files dir src pkg file) -> d_file d' f = d_file d f.
Proof.
  intros Hd Hcwd Hnp Hst Hps Hc D1 D2 D3 Hn N1. pose proof Hc as (_ & _ & _ & Hp & Hf & Hi).
  assert (Hsrc : Forall name src) by (destruct Hst as (? & _ & _ & _ & X & _); exact X).
  assert (Hdp : Forall name (dir ++ pkg)) by (apply Forall_app; auto).
  assert (N : forall g, name g -> In g [T "MANIFEST.in"; T ".gitattributes"; T "setup.py"] -> file_in (dir ++ pkg) file <> file_in dir g).
  { intros g Hg Hin E. apply file_in_inj in E as [E1 E2]; [|assumption..]. subst g.
    rewrite <- (app_nil_r dir) in E1 at 2. apply app_inv_head in E1. now apply Hn in Hin. }
  pose proof (proj1 (proj2 (C86_root d p dir src script Hd Hcwd Hst)) Hnp Hps) as G.
  destruct (setup_run is_dir template d p dir src pkg file c Hd Hcwd Hsrc G Hc D1 D2 D3) as (d' & R & T' & Gt & F).
  { exact N1. }
  { apply N; [known|cbn; auto]. }
  exists d'. split; [|auto]. unfold main. change (text_eqb (T "setup") (T "setup")) with true. cbn iota.
  rewrite (ok_andthen _ _ _ _ _ R). unfold andthen. rewrite (scan_at p d' dir) by assumption. rewrite F.
  - destruct (d_file d (file_in dir (T "setup.py"))) eqn:E; [|reflexivity]. exfalso. apply Hnp. left. congruence.
  - cbn [files In]. intros [E|[E|[E|[E|[]]]]].
    + revert E. apply N; [known|cbn; auto].
    + apply file_in_inj in E as [_ E]; first [assumption|known|discriminate].
    + apply file_in_inj in E as [_ E]; first [assumption|known|discriminate].
    + apply file_in_inj in E as [_ E]; first [assumption|known|discriminate].
Qed.
Print Assumptions C105_elsewhere.

(** If the working directory has no directory for the package, nothing changes. *)
Theorem C105_no_package is_dir template d p dir src script pkg file c :
  Forall name dir -> cwd p = abs dir -> ~ project_in d dir -> started p src script -> project_in d src ->
  complete d src c pkg file -> is_dir (abs (dir ++ pkg)) = false ->
  main is_dir template p (Some (T "setup")) d = (d, PRaise NoSuchFile).
Proof.
  intros Hd Hcwd Hnp Hst Hps Hc D. pose proof Hc as (_ & _ & _ & Hp & Hf & Hi).
  assert (Hsrc : Forall name src) by (destruct Hst as (? & _ & _ & _ & X & _); exact X).
  pose proof (proj1 (proj2 (C86_root d p dir src script Hd Hcwd Hst)) Hnp Hps) as G.
  unfold main. change (text_eqb (T "setup") (T "setup")) with true. cbn iota. unfold andthen at 1.
  rewrite (setup_opened is_dir template d p src pkg file c Hsrc G Hc). cbv zeta.
  unfold andthen at 1. unfold open_new. rewrite (at_relative p dir) by assumption.
  rewrite dirname_file by first [assumption|apply Forall_app; auto]. now rewrite D.
Qed.
Print Assumptions C105_no_package.

(** * Started elsewhere it never succeeds *)
Lemma split_last n s : ~ In "/"%char n -> split_on "/" (s ++ T "/" ++ n) = split_on "/" s ++ [n].
Proof.
  intros Hn. induction s as [|x s IH].
  - change (split_on "/" ([] ++ T "/" ++ n)) with ([] :: split_on "/" n). now rewrite split_on_last.
  - cbn [app split_on]. rewrite IH. destruct (Ascii.eqb x "/"); [reflexivity|].
    destruct (split_on "/" s) eqn:E; [|reflexivity]. exfalso. destruct s as [|y s]; [discriminate|]. cbn [split_on] in E.
    destruct (Ascii.eqb y "/"); [discriminate|]. now destruct (split_on "/" s).
Qed.
(** The last component of a path stays the last one. *)
Lemma norm_last s n : name n -> starts_with (T "/") (s ++ T "/" ++ n) = true ->
  basename (normpath (s ++ T "/" ++ n)) = n.
Proof.
  intros Hn Hs. destruct (name_eqb n Hn) as (E1 & E2 & E3). destruct Hn as [[Hn Hin] _].
  unfold normpath. rewrite Hs. destruct (s ++ T "/" ++ n) as [|x q] eqn:E; [now destruct s|]. rewrite <- E. clear x q E Hs.
  set (slashes := if starts_with (T "//") (s ++ T "/" ++ n) && negb (starts_with (T "///") (s ++ T "/" ++ n)) then T "//" else T "/").
  assert (L : exists a, slashes = a ++ T "/") by (unfold slashes; destruct (_ && _); [now exists (T "/")|now exists []]).
  destruct L as [a L]. clearbody slashes. subst slashes.
  assert (B : negb (is_nil (a ++ T "/")) = true) by now destruct a. rewrite B.
  rewrite split_last, fold_left_app by exact Hin. cbn [fold_left].
  set (done := fold_left (norm_step true) (split_on "/" s) []). unfold norm_step.
  rewrite E1, E2, E3. cbn [orb negb]. cbn [rev]. clearbody done.
  assert (J : exists b, (a ++ T "/") ++ join (T "/") (rev done ++ [n]) = b ++ T "/" ++ n).
  { destruct (rev done) as [|y l]; [exists a; cbn [app join]; now rewrite <- app_assoc|].
    rewrite join_snoc by discriminate. exists ((a ++ T "/") ++ join (T "/") (y :: l)). now rewrite <- !app_assoc. }
  destruct J as [b ->]. destruct (b ++ T "/" ++ n) as [|y l] eqn:E; [now destruct b|]. rewrite <- E. now apply basename_app.
Qed.
Lemma file_base dir f : name f -> basename (file_in dir f) = f.
Proof.
  intros [[_ H] _]. unfold file_in, abs. destruct dir as [|x dir]; [exact (basename_app [] f H)|].
  rewrite join_snoc by discriminate. rewrite app_assoc. now apply basename_app.
Qed.
Lemma slash_or r : r = [] \/ (exists s, r = s ++ T "/") \/ exists s x, r = s ++ [x] /\ x <> "/"%char.
Proof.
  destruct (rev r) as [|x s] eqn:E; apply (f_equal (@rev ascii)) in E; rewrite rev_involutive in E; cbn [rev] in E.
  - now left.
  - right. destruct (Ascii.eqb_spec x "/") as [->|H]; [left|right]; rewrite E; [now exists (rev s)|].
    now exists (rev s), x.
Qed.
(** os.path.join ends with its second argument. *)
Lemma join_ends a n : a <> [] -> name n -> exists s, path_join a n = s ++ T "/" ++ n
  /\ (starts_with (T "/") a = true -> starts_with (T "/") (path_join a n) = true).
Proof.
  intros Ha Hn. assert (Sn : starts_with (T "/") n = false) by (apply (relative [n]); [discriminate|constructor; [apply Hn|constructor]]).
  unfold path_join. rewrite Sn.
  assert (S : forall b, starts_with (T "/") a = true -> starts_with (T "/") (a ++ b) = true).
  { intros b. destruct a as [|x a]; [congruence|]. exact (fun H => H). }
  destruct (slash_or a) as [E|[(s & E)|(s & x & E & Hx)]]; [congruence| |].
  - assert (R : rev a = "/"%char :: rev s) by (rewrite E, rev_app_distr; reflexivity). rewrite R.
    change (Ascii.eqb "/" "/") with true. cbn iota. exists s. split; [rewrite E, <- app_assoc; reflexivity|exact (S n)].
  - assert (R : rev a = x :: rev s) by (rewrite E, rev_app_distr; reflexivity). rewrite R.
    apply Ascii.eqb_neq in Hx. rewrite Hx. exists a. split; [reflexivity|exact (S _)].
Qed.
Lemma at_base p dir a n : cwd p = abs dir -> name n -> basename (at_path p (path_join a n)) = n.
Proof.
  intros Hc Hn. assert (Sn : starts_with (T "/") n = false) by (apply (relative [n]); [discriminate|constructor; [apply Hn|constructor]]).
  assert (C : abs dir <> []) by discriminate. assert (C2 : starts_with (T "/") (abs dir) = true) by reflexivity.
  unfold at_path, abspath. rewrite Hc. destruct a as [|x a].
  - assert (E0 : path_join [] n = n) by (unfold path_join; now rewrite Sn). rewrite E0, Sn.
    destruct (join_ends (abs dir) n C Hn) as (s & E & H). specialize (H C2). rewrite E in H |- *. now apply norm_last.
  - destruct (join_ends (x :: a) n ltac:(discriminate) Hn) as (s & E & H).
    destruct (starts_with (T "/") (path_join (x :: a) n)) eqn:Ep; [rewrite E in Ep |- *; now apply norm_last|].
    assert (J : exists q, path_join (abs dir) (path_join (x :: a) n) = q ++ T "/" ++ n
                 /\ starts_with (T "/") (q ++ T "/" ++ n) = true).
    { unfold path_join at 1. rewrite Ep. destruct (rev (abs dir)) as [|y l] eqn:Er; [now apply rev_nil_iff in Er|].
      rewrite E. destruct (Ascii.eqb y "/").
      - exists (abs dir ++ s). rewrite <- !app_assoc. split; reflexivity.
      - exists (abs dir ++ T "/" ++ s). rewrite <- !app_assoc. split; reflexivity. }
    destruct J as (q & -> & Hq). now apply norm_last.
Qed.

Definition spares {A} (f : text) (m : action A) : Prop := forall d, d_file (fst (m d)) f = d_file d f.
Lemma spares_ret {A} f (a : A) : spares f (ret a).
Proof. intros d. reflexivity. Qed.
Lemma spares_fail {A} f e : spares f (@fail A e).
Proof. intros d. reflexivity. Qed.
Lemma spares_read f p path : spares f (read_file p path).
Proof. intros d. reflexivity. Qed.
Lemma spares_andthen {A B} f (m : action A) (k : A -> action B) : spares f m -> (forall a, spares f (k a)) -> spares f (andthen m k).
Proof.
  intros Hm Hk d. unfold andthen. specialize (Hm d). destruct (m d) as [d' [a|e]]; cbn [fst] in *; [|exact Hm].
  now rewrite Hk.
Qed.
Lemma spares_append f is_dir p path s : at_path p path <> f -> spares f (append_to is_dir p path s).
Proof.
  intros H d. unfold append_to. destruct (is_dir _); [|reflexivity]. cbn [fst]. apply stored_other. congruence.
Qed.
Lemma spares_open f is_dir p path : at_path p path <> f -> spares f (open_new is_dir p path).
Proof.
  intros H d. unfold open_new. destruct (is_dir _); [|reflexivity]. cbn [fst]. apply stored_other. congruence.
Qed.

(** From a directory that is no project the command never succeeds, whatever
    setup.cfg says (unless the version file is the setup.py it looks for). *)
Theorem C105_never_elsewhere is_dir template d p dir :
  Forall name dir -> cwd p = abs dir -> ~ project_in d dir ->
  (forall root c source, get_root d p = POk root -> get_config (d_file d (at_path p (path_join root (T "setup.cfg")))) = POk c ->
     c_source c = Some source -> at_path p source <> file_in dir (T "setup.py")) ->
  exists d' e, main is_dir template p (Some (T "setup")) d = (d', PRaise e).
Proof.
  intros Hd Hcwd Hnp Hs. set (S := file_in dir (T "setup.py")) in *.
  assert (B : forall a n, name n -> n <> T "setup.py" -> at_path p (path_join a n) <> S).
  { intros a n Hn Hne E. apply (f_equal basename) in E. rewrite (at_base p dir) in E by assumption. unfold S in E.
    rewrite file_base in E by known. congruence. }
  assert (N0 : d_file d S = None) by (destruct (d_file d S) eqn:E; [exfalso; apply Hnp; left; fold S; congruence|reflexivity]).
  assert (K : d_file (fst (run_setup is_dir template p d)) S = None).
  { rewrite <- N0. unfold run_setup, andthen at 1. destruct (get_root d p) as [root|e] eqn:Er; [|reflexivity].
    rewrite (ok_andthen _ _ d d (d_file d (at_path p (path_join root (T "setup.cfg"))))) by reflexivity.
    specialize (Hs root). destruct (get_config (d_file d (at_path p (path_join root (T "setup.cfg"))))) as [c|e].
    - specialize (Hs c). destruct (c_source c) as [[|x source]|]; [reflexivity| |reflexivity].
      specialize (Hs (x :: source) eq_refl eq_refl eq_refl). set (src := x :: source) in *.
      match goal with |- d_file (fst (?m d)) S = _ => assert (X : spares S m); [|exact (X d)] end.
      apply spares_andthen; [now apply spares_open|]. intros _. destruct (negb _); [apply spares_fail|].
      apply spares_andthen; [now apply spares_append|]. intros _.
      apply spares_andthen.
      { apply spares_andthen; [apply spares_read|]. intros [old|]; [|apply spares_ret].
        destruct (contains _ _); [apply spares_ret|]. apply spares_append, B; [known|discriminate]. }
      intros _. apply spares_andthen.
      { apply spares_andthen; [apply spares_read|]. intros o. apply spares_andthen; [|intros _];
          (destruct (mem _ _); [apply spares_ret|apply spares_append, B; [known|discriminate]]). }
      intros _. apply spares_andthen; [|intros _; apply spares_ret].
      apply spares_andthen; [apply spares_read|]. intros o. destruct (existsb _ _); [apply spares_ret|].
      apply spares_append. rewrite (at_file p dir) by first [assumption|known]. intros E. unfold S in E.
      apply file_in_inj in E as [_ E]; first [assumption|known|discriminate].
    - assert (X : spares S (andthen (append_to is_dir p (path_join root (T "setup.cfg")) sample_config) (fun _ => ret 1))).
      { apply spares_andthen; [apply spares_append, B; [known|discriminate]|intros _; apply spares_ret]. }
      destruct e; try reflexivity; exact (X d). }
  unfold main. change (text_eqb (T "setup") (T "setup")) with true. cbn iota. unfold andthen at 1.
  destruct (run_setup is_dir template p d) as [d' [errors|e]] eqn:R; [|exists d', e; reflexivity]. cbn [fst] in K.
  unfold andthen. rewrite (scan_at p d' dir) by assumption. fold S. rewrite K. now exists d', NoSuchFile.
Qed.
Print Assumptions C105_never_elsewhere.

(** Without argument it fails, with another argument it does nothing and exits
    with 0. *)
Theorem C105_argument is_dir template d p :
  main is_dir template p None d = (d, PRaise PIndexError)
  /\ forall arg, arg <> T "setup" -> main is_dir template p (Some arg) d = (d, POk 0).
Proof.
  split; [reflexivity|]. intros arg H. unfold main. apply text_eqb_neq in H. now rewrite H.
Qed.
Print Assumptions C105_argument.

(** * Cases *)
Definition case_dirs (x : text) : bool := mem x [T "/p"; T "/p/gcs"; T "/home"; T "/home/gcs"].
Definition case_disk : disk :=
  Disk (fun f => lookup f [(T "/p/setup.py", T "import versioneer; setup(version=versioneer.get_version(), cmdclass=versioneer.get_cmdclass())");
                           (T "/p/setup.cfg", repo_setup_cfg); (T "/p/gcs/_version.py", T "old")])
       (fun _ => Git None None None None None).
Definition case_home : process := Process (abs [T "p"]) [] (T "versioneer.py").
Definition case_away : process := Process (abs [T "home"]) [] (join (T "/") ([T ".."; T "p"] ++ [T "versioneer.py"])).
Definition case_config : config :=
  match get_config (Some repo_setup_cfg) with POk c => c | PRaise _ => Config [] [] None None None None end.
Lemma case_complete : complete case_disk [T "p"] case_config [T "gcs"] (T "_version.py").
Proof. repeat split; try (vm_compute; reflexivity); try discriminate; try (cbn; intuition discriminate). constructor; [known|constructor]. Qed.
Example C105_case_home : exists d',
  main case_dirs (fun _ => T "new") case_home (Some (T "setup")) case_disk = (d', POk 0)
  /\ d_file d' (T "/p/gcs/_version.py") = Some (T "new")
  /\ d_file d' (T "/p/MANIFEST.in") = Some (unlines ["include versioneer.py"; "include gcs/_version.py"]%string)
  /\ d_file d' (T "/p/.gitattributes") = Some (unlines ["gcs/_version.py export-subst"]%string).
Proof. eexists. split; [vm_compute; reflexivity|]. repeat split; vm_compute; reflexivity. Qed.
Example C105_case_away : ~ project_in case_disk [T "home"] /\ started case_away [T "p"] (T "versioneer.py")
  /\ project_in case_disk [T "p"].
Proof.
  split; [intros [H|H]; apply H; vm_compute; reflexivity|]. split; [|left; vm_compute; discriminate].
  exists [T "home"]. split; [constructor; [known|constructor]|]. split; [reflexivity|]. split; [known|].
  split; [constructor; [known|constructor]|]. right. exists [T ".."; T "p"]. split; [|split; reflexivity].
  repeat constructor; try discriminate; cbn; intuition discriminate.
Qed.

(** The command does not set up the project it belongs to when it is started in
    another directory: the version file of the project stays, one appears in the
    working directory, and MANIFEST.in of the project has changed. *)
Theorem C105_refuted : exists is_dir template d p src script pkg file c d' e,
  started p src script /\ project_in d src /\ complete d src c pkg file
  /\ main is_dir template p (Some (T "setup")) d = (d', PRaise e)
  /\ d_file d' (file_in (src ++ pkg) file) = d_file d (file_in (src ++ pkg) file)
  /\ d_file d' (file_in (src ++ pkg) file) <> Some (template c)
  /\ d_file d' (file_in src (T "MANIFEST.in")) <> d_file d (file_in src (T "MANIFEST.in"))
  /\ d_file d (T "/home/gcs/_version.py") = None /\ d_file d' (T "/home/gcs/_version.py") = Some (template c).
Proof.
  exists case_dirs, (fun _ => T "new"), case_disk, case_away, [T "p"], (T "versioneer.py"), [T "gcs"], (T "_version.py"), case_config.
  destruct C105_case_away as (_ & H1 & H2).
  do 2 eexists. split; [exact H1|]. split; [exact H2|]. split; [exact case_complete|]. split; [vm_compute; reflexivity|].
  repeat split; try (vm_compute; reflexivity); vm_compute; discriminate.
Qed.
Print Assumptions C105_refuted.

(** The other theorems on cases: a project without setup.cfg, a working directory
    without the package. *)
Definition bare_disk : disk := Disk (fun f => lookup f [(T "/p/setup.py", T "setup()")]) (fun _ => Git None None None None None).
Example C105_case_incomplete : exists d', main case_dirs (fun _ => T "new") case_home (Some (T "setup")) bare_disk = (d', POk 1)
  /\ d_file d' (T "/p/setup.cfg") = Some sample_config.
Proof.
  assert (F : Forall name [T "p"]) by (constructor; [known|constructor]).
  destruct (C105_incomplete case_dirs (fun _ => T "new") bare_disk case_home [T "p"] NoSuchFile F eq_refl
              ltac:(vm_compute; discriminate) eq_refl eq_refl (or_introl eq_refl)) as (d' & H & _ & _ & C).
  exists d'. split; [exact H|exact C].
Qed.
Example C105_case_no_package :
  main (fun x => mem x [T "/p"; T "/p/gcs"; T "/home"]) (fun _ => T "new") case_away (Some (T "setup")) case_disk
  = (case_disk, PRaise NoSuchFile).
Proof.
  destruct C105_case_away as (H0 & H1 & H2). assert (F : Forall name [T "home"]) by (constructor; [known|constructor]).
  exact (C105_no_package (fun x => mem x [T "/p"; T "/p/gcs"; T "/home"]) (fun _ => T "new") case_disk case_away [T "home"] _ _ _ _ _
           F eq_refl H0 H1 H2 case_complete eq_refl).
Qed.
Example C105_case_never : forall root c source, get_root case_disk case_away = POk root ->
  get_config (d_file case_disk (at_path case_away (path_join root (T "setup.cfg")))) = POk c ->
  c_source c = Some source -> at_path case_away source <> file_in [T "home"] (T "setup.py").
Proof.
  intros root c source Hr. vm_compute in Hr. injection Hr as <-. intros Hc Hs.
  assert (X : c = case_config) by (vm_compute in Hc; injection Hc as <-; reflexivity). subst c.
  vm_compute in Hs. injection Hs as <-. vm_compute. discriminate.
Qed.

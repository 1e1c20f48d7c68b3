(** C79: building distributions does not touch the source tree.  C80: run_command.
    C81: freezing an executable. *)
From Coq Require Import String Ascii Bool Arith ZArith Lia List.
From Verif Require Import Version VersionFacts Versioneer Build PropDist.
Import ListNotations.
Open Scope list_scope.

(** * Specification *)

(** Every name refers to a file. *)
Definition sound (s : fs) : Prop := forall p k, names s p = Some k -> k < length (files s).
(** The names in [P] have the same contents in both states. *)
Definition same_on (P : text -> Prop) (s t : fs) : Prop := forall p, P p -> content t p = content s p.
(** A step that leaves the contents of these names alone; it may create, change,
    link and remove all other names. *)
Definition leaves (P : text -> Prop) (f : step) : Prop :=
  forall s t, sound s -> f s = Some t -> sound t /\ same_on P s t.
(** Not in the directory. *)
Definition outside (dir p : text) : Prop := forall q, p <> dir ++ "/"%char :: q.
(** The state at the end. *)
Definition final (h : list fs) (s : fs) : fs := last h s.

(** * Lemmas *)
Lemma set_nth_length k c l : length (set_nth k c l) = length l.
Proof. revert k. induction l as [|x l IH]; intros [|k]; cbn; congruence. Qed.
Lemma set_nth_other k c l j : j <> k -> nth_error (set_nth k c l) j = nth_error l j.
Proof. revert k j. induction l as [|x l IH]; intros [|k] [|j] H; cbn; try congruence. now apply IH; congruence. Qed.
Lemma set_nth_same k c l : k < length l -> nth_error (set_nth k c l) k = Some c.
Proof. revert k. induction l as [|x l IH]; intros [|k] H; cbn in *; try lia; [reflexivity|]. apply IH. lia. Qed.

Lemma bind_same n p k : bind_name n p k p = k.
Proof. unfold bind_name. now rewrite (proj2 (text_eqb_eq p p) eq_refl). Qed.
Lemma bind_other n p k q : q <> p -> bind_name n p k q = n q.
Proof. intros H. unfold bind_name. destruct (text_eqb q p) eqn:E; [|reflexivity]. apply text_eqb_eq in E. congruence. Qed.

(** The file that [p] names has no other name. *)
Definition alone (p : text) (s : fs) : Prop := forall k, names s p = Some k -> forall q, names s q = Some k -> q = p.

Lemma unlink_spec p s t : sound s -> unlink p s = Some t ->
  sound t /\ names t p = None /\ (forall q, q <> p -> content t q = content s q).
Proof.
  intros Hs. unfold unlink. destruct (names s p) as [k|] eqn:E; [|discriminate]. intros H. injection H as <-.
  split; [|split].
  - intros q j. cbn. unfold bind_name. destruct (text_eqb q p); [discriminate|]. apply Hs.
  - cbn. apply bind_same.
  - intros q Hq. unfold content. cbn. now rewrite bind_other.
Qed.

Lemma open_new p s : sound s -> names s p = None -> exists t, open_w p s = Some t
  /\ sound t /\ alone p t /\ content t p = Some [] /\ (forall q, q <> p -> content t q = content s q).
Proof.
  intros Hs E. unfold open_w. rewrite E. eexists. split; [reflexivity|]. repeat split.
  - intros q j. cbn. rewrite app_length. cbn. unfold bind_name. destruct (text_eqb q p).
    + intros H. injection H as <-. lia.
    + intros H. specialize (Hs q j H). lia.
  - intros k Hk q Hq. cbn in *. rewrite bind_same in Hk. injection Hk as <-. unfold bind_name in Hq.
    destruct (text_eqb q p) eqn:Eq; [now apply text_eqb_eq|]. specialize (Hs q _ Hq). lia.
  - unfold content. cbn. rewrite bind_same, nth_error_app2, Nat.sub_diag by lia. reflexivity.
  - intros q Hq. unfold content. cbn. rewrite bind_other by exact Hq. destruct (names s q) as [k|] eqn:Ek; [|reflexivity].
    apply nth_error_app1. now apply (Hs q).
Qed.

Lemma append_alone p c s old : sound s -> alone p s -> content s p = Some old -> exists t, append p c s = Some t
  /\ sound t /\ alone p t /\ content t p = Some (old ++ c) /\ (forall q, q <> p -> content t q = content s q).
Proof.
  intros Hs Ha Hc. unfold append, content in *. destruct (names s p) as [k|] eqn:E; [|discriminate]. rewrite Hc.
  eexists. split; [reflexivity|]. cbn [names files]. rewrite E. repeat split.
  - intros q j. cbn. rewrite set_nth_length. apply Hs.
  - intros k' Hk' q Hq. cbn in *. now apply (Ha k').
  - apply set_nth_same. apply nth_error_Some. congruence.
  - intros q Hq. destruct (names s q) as [j|] eqn:Ej; [|reflexivity]. apply set_nth_other. intros ->.
    apply Hq. now apply (Ha k).
Qed.

Lemma final_cons x h (s : fs) : final (x :: h) s = final h x.
Proof.
  unfold final. revert x s. induction h as [|y h IH]; intros x s; [reflexivity|].
  change (last (x :: y :: h) s) with (last (y :: h) s). now rewrite !IH.
Qed.

Lemma run_app l1 l2 s : run_steps (l1 ++ l2) s =
  let '(h1, ok1) := run_steps l1 s in
  if ok1 then let '(h2, ok2) := run_steps l2 (final h1 s) in (h1 ++ h2, ok2) else (h1, false).
Proof.
  revert s. induction l1 as [|f l1 IH]; intros s; cbn [app run_steps].
  - cbn. destruct (run_steps l2 s). reflexivity.
  - destruct (f s) as [s'|]; [|reflexivity]. rewrite IH. destruct (run_steps l1 s') as [h1 ok1] eqn:E1.
    destruct ok1; [|reflexivity]. rewrite final_cons. destruct (run_steps l2 _). reflexivity.
Qed.

Lemma run_leaves P l : Forall (leaves P) l -> forall s, sound s ->
  Forall (fun t => sound t /\ same_on P s t) (fst (run_steps l s)).
Proof.
  induction 1 as [|f l Hf _ IH]; intros s Hs; cbn [run_steps fst]; [constructor|].
  destruct (f s) as [s'|] eqn:E; [|constructor]. destruct (Hf s s' Hs E) as [Hs' H1].
  specialize (IH s' Hs'). destruct (run_steps l s') as [h ok]. cbn [fst] in *. constructor; [auto|].
  eapply Forall_impl; [|exact IH]. cbn. intros t [Ht H2]. split; [exact Ht|]. intros p Hp. now rewrite (H2 p Hp), (H1 p Hp).
Qed.

Lemma final_Forall (Q : fs -> Prop) h s : Q s -> Forall Q h -> Q (final h s).
Proof.
  intros Hs H. revert s Hs. induction H as [|x h Hx _ IH]; intros s Hs; [exact Hs|]. rewrite final_cons. now apply IH.
Qed.

(** Writing the chunks to a file that has one name. *)
Lemma appends_ok p chunks : forall s old, sound s -> alone p s -> content s p = Some old ->
  exists h, run_steps (map (append p) chunks) s = (h, true)
    /\ Forall (fun t => sound t /\ same_on (fun q => q <> p) s t) h
    /\ content (final h s) p = Some (old ++ concat chunks).
Proof.
  induction chunks as [|c chunks IH]; intros s old Hs Ha Hc; cbn [map run_steps concat].
  - exists []. rewrite app_nil_r. auto.
  - destruct (append_alone p c s old Hs Ha Hc) as (t & -> & Ht & Ht2 & Ht3 & Ht4).
    destruct (IH t (old ++ c) Ht Ht2 Ht3) as (h & -> & H1 & H2). eexists. split; [reflexivity|]. split.
    + constructor; [split; [exact Ht|exact Ht4]|]. eapply Forall_impl; [|exact H1]. cbn. intros u [Hu Hu2].
      split; [exact Hu|]. intros q Hq. now rewrite (Hu2 q Hq), Ht4.
    + rewrite final_cons, H2. now rewrite app_assoc.
Qed.

Lemma write_new p chunks s : sound s -> names s p = None ->
  exists h, run_steps (write_file p chunks) s = (h, true)
    /\ Forall (fun t => sound t /\ same_on (fun q => q <> p) s t) h
    /\ content (final h s) p = Some (concat chunks).
Proof.
  intros Hs Hp. unfold write_file. cbn [run_steps].
  destruct (open_new p s Hs Hp) as (t & -> & Ht & Ht2 & Ht3 & Ht4).
  destruct (appends_ok p chunks t [] Ht Ht2 Ht3) as (h & -> & H1 & H2). eexists. split; [reflexivity|]. split.
  - constructor; [split; [exact Ht|exact Ht4]|]. eapply Forall_impl; [|exact H1]. cbn. intros u [Hu Hu2].
    split; [exact Hu|]. intros q Hq. now rewrite (Hu2 q Hq), Ht4.
  - rewrite final_cons, H2. reflexivity.
Qed.

Lemma replace_ok p chunks s : sound s -> names s p <> None ->
  exists h, run_steps (unlink p :: write_file p chunks) s = (h, true)
    /\ Forall (fun t => sound t /\ same_on (fun q => q <> p) s t) h
    /\ content (final h s) p = Some (concat chunks).
Proof.
  intros Hs Hp. cbn [run_steps]. destruct (unlink p s) as [t|] eqn:E.
  2:{ exfalso. unfold unlink in E. destruct (names s p); [discriminate|congruence]. }
  destruct (unlink_spec p s t Hs E) as (Ht & Ht2 & Ht3).
  destruct (write_new p chunks t Ht Ht2) as (h & -> & H1 & H2). eexists. split; [reflexivity|]. split.
  - constructor; [split; [exact Ht|exact Ht3]|]. eapply Forall_impl; [|exact H1]. cbn. intros u [Hu Hu2].
    split; [exact Hu|]. intros q Hq. now rewrite (Hu2 q Hq), Ht3.
  - rewrite final_cons. exact H2.
Qed.
Lemma replace_missing p chunks s : names s p = None -> run_steps (unlink p :: write_file p chunks) s = ([], false).
Proof. intros H. cbn [run_steps]. unfold unlink. now rewrite H. Qed.

Lemma target_not_outside dir p q : outside dir q -> q <> path_join dir p.
Proof. intros H. apply H. Qed.

(** What the release and build commands have in common. *)
Lemma replace_in_tree (prepare : list step) dir p chunks s : sound s -> Forall (leaves (outside dir)) prepare ->
  let '(h, ok) := run_steps (prepare ++ write_to_version_file (path_join dir p) chunks) s in
  Forall (fun t => same_on (outside dir) s t) h
  /\ (ok = true -> content (final h s) (path_join dir p) = Some (concat chunks))
  /\ (ok = true <-> snd (run_steps prepare s) = true
                   /\ names (final (fst (run_steps prepare s)) s) (path_join dir p) <> None).
Proof.
  intros Hs Hl. rewrite run_app. pose proof (run_leaves _ _ Hl s Hs) as L. destruct (run_steps prepare s) as [h1 ok1].
  cbn [fst snd] in *. assert (L' : Forall (fun t => same_on (outside dir) s t) h1).
  { eapply Forall_impl; [|exact L]. cbn. tauto. }
  destruct ok1; [|split; [exact L'|split; [discriminate|split; [discriminate|tauto]]]].
  assert (S1 : sound (final h1 s) /\ same_on (outside dir) s (final h1 s)).
  { apply (final_Forall (fun t => sound t /\ same_on (outside dir) s t)); [split; [exact Hs|intros q _; reflexivity]|exact L]. }
  destruct S1 as [S1 S2]. unfold write_to_version_file. destruct (names (final h1 s) (path_join dir p)) as [k|] eqn:E.
  - destruct (replace_ok (path_join dir p) chunks (final h1 s) S1) as (h & -> & H1 & H2); [congruence|]. repeat split.
    + apply Forall_app. split; [exact L'|]. eapply Forall_impl; [|exact H1]. cbn. intros t [_ Ht] q Hq.
      rewrite (Ht q (target_not_outside _ _ _ Hq)). now apply S2.
    + intros _. rewrite <- H2. f_equal. clear. revert s. induction h1 as [|x h1 IH]; intros s; [reflexivity|].
      cbn [app]. rewrite !final_cons. apply IH.
    + congruence.
  - rewrite replace_missing by exact E. rewrite app_nil_r. repeat split; try tauto; try discriminate.
Qed.

(** * Theorems *)

(** Making a source distribution: whatever steps distutils takes to set up the
    release tree in [base], hard links included, and wherever the command stops,
    no name outside [base] has changed contents.  At the end the version file of
    the release reads as the versions that were computed, and so does setup.py
    in the release. *)
Theorem C79_sdist s release base source v chunks g :
  sound s -> Forall (leaves (outside base)) release -> concat chunks = version_file (dict_of v) ->
  let '(h, ok) := run_steps (make_release_tree release base source chunks) s in
  Forall (fun t => same_on (outside base) s t) h
  /\ (ok = true -> exists c, content (final h s) (path_join base source) = Some c
        /\ setup_get_versions c g = VOk (dict_of v)
        /\ sdist_version (dict_of v) = VOk (JText (v_version v)))
  /\ (ok = true <-> snd (run_steps release s) = true
                   /\ names (final (fst (run_steps release s)) s) (path_join base source) <> None).
Proof.
  intros Hs Hl Hc. pose proof (replace_in_tree release base source chunks s Hs Hl) as H. unfold make_release_tree.
  destruct (run_steps _ s) as [h ok]. destruct H as (H1 & H2 & H3). split; [exact H1|]. split; [|exact H3].
  intros Hok. exists (version_file (dict_of v)). rewrite <- Hc. split; [auto|]. rewrite Hc. apply C73_setup.
Qed.
Print Assumptions C79_sdist.

(** Building: the same for the build directory. *)
Theorem C79_build_py s build lib file v chunks g :
  sound s -> Forall (leaves (outside lib)) build -> file <> [] -> concat chunks = version_file (dict_of v) ->
  let '(h, ok) := run_steps (build_py build lib (Some file) chunks) s in
  Forall (fun t => same_on (outside lib) s t) h
  /\ (ok = true -> exists c, content (final h s) (path_join lib file) = Some c
        /\ setup_get_versions c g = VOk (dict_of v))
  /\ (ok = true <-> snd (run_steps build s) = true
                   /\ names (final (fst (run_steps build s)) s) (path_join lib file) <> None).
Proof.
  intros Hs Hl Hf Hc. pose proof (replace_in_tree build lib file chunks s Hs Hl) as H. unfold build_py.
  destruct file as [|x file]; [congruence|]. destruct (run_steps _ s) as [h ok]. destruct H as (H1 & H2 & H3).
  split; [exact H1|]. split; [|exact H3].
  intros Hok. exists (version_file (dict_of v)). rewrite <- Hc. split; [auto|]. rewrite Hc. apply C73_setup.
Qed.
Print Assumptions C79_build_py.

(** Without a versionfile_build nothing is added to the build. *)
Theorem C79_build_py_none build lib chunks :
  build_py build lib None chunks = build /\ build_py build lib (Some []) chunks = build.
Proof. unfold build_py. now rewrite app_nil_r. Qed.
Print Assumptions C79_build_py_none.

(** Freezing an executable writes the version into the source tree and the
    template back at the end: other names are untouched when the freezer leaves
    them alone, and the version file has the template when all steps succeed. *)
Theorem C81_exe_partial s exe source chunks template :
  sound s -> Forall (leaves (fun q => q <> source)) exe ->
  let '(h, ok) := run_steps (build_exe exe source chunks template) s in
  Forall (fun t => same_on (fun q => q <> source) s t) h
  /\ (ok = true -> content (final h s) source = Some (concat template)).
Proof.
  intros Hs Hl. unfold build_exe. rewrite run_app. destruct (names s source) as [k|] eqn:E.
  2:{ unfold write_to_version_file. rewrite replace_missing by exact E. split; [constructor|discriminate]. }
  destruct (replace_ok source chunks s Hs) as (h1 & E1 & H1 & H2); [congruence|]. unfold write_to_version_file. rewrite E1.
  rewrite run_app. assert (S1 : sound (final h1 s) /\ same_on (fun q => q <> source) s (final h1 s)).
  { apply (final_Forall (fun t => sound t /\ same_on (fun q => q <> source) s t)); [split; [exact Hs|intros q _; reflexivity]|exact H1]. }
  destruct S1 as [S1 S2]. pose proof (run_leaves _ _ Hl (final h1 s) S1) as L.
  destruct (run_steps exe (final h1 s)) as [h2 ok2]. cbn [fst] in L.
  assert (F1 : Forall (fun t => same_on (fun q => q <> source) s t) h1) by (eapply Forall_impl; [|exact H1]; cbn; tauto).
  assert (F2 : Forall (fun t => same_on (fun q => q <> source) s t) h2).
  { eapply Forall_impl; [|exact L]. cbn. intros t [_ Ht] q Hq. now rewrite (Ht q Hq), S2. }
  destruct ok2; [|split; [apply Forall_app; auto|discriminate]].
  set (s2 := final h2 (final h1 s)).
  assert (S3 : sound s2 /\ same_on (fun q => q <> source) (final h1 s) s2).
  { apply (final_Forall (fun t => sound t /\ same_on (fun q => q <> source) (final h1 s) t)); [split; [exact S1|intros q _; reflexivity]|exact L]. }
  destruct S3 as [S3 S4]. destruct (names s2 source) as [k2|] eqn:E2.
  - destruct (replace_ok source template s2 S3) as (h3 & -> & H5 & H6); [congruence|]. split.
    + apply Forall_app. split; [exact F1|]. apply Forall_app. split; [exact F2|]. eapply Forall_impl; [|exact H5]. cbn.
      intros t [_ Ht] q Hq. now rewrite (Ht q Hq), (S4 q Hq), S2.
    + intros _. rewrite <- H6. f_equal. unfold s2. clear. revert s. induction h1 as [|x h1 IH]; intros s; cbn [app].
      * revert s. induction h2 as [|x h2 IH]; intros s; [reflexivity|]. cbn [app]. rewrite !final_cons. apply IH.
      * rewrite !final_cons. apply IH.
  - rewrite replace_missing by exact E2. split; [|discriminate]. rewrite app_nil_r. apply Forall_app. auto.
Qed.
Print Assumptions C81_exe_partial.

(** When the freezer fails, the version stays in the source tree. *)
Theorem C81_exe_refuted : exists s exe source v template,
  sound s /\ Forall (leaves (fun q => q <> source)) exe /\ content s source = Some template
  /\ let '(h, ok) := run_steps (build_exe exe source [version_file (dict_of v)] [template]) s in
     ok = false /\ content (final h s) source = Some (version_file (dict_of v)) /\ version_file (dict_of v) <> template.
Proof.
  exists (Fs (fun p => if text_eqb p (T "gcs/_version.py") then Some 0 else None) [T "import os"]), [fun _ => None],
    (T "gcs/_version.py"), (Versions (T "1.0") None None None None), (T "import os").
  split.
  { intros p k. cbn. destruct (text_eqb _ _); [|discriminate]. intros H. injection H as <-. auto. }
  split; [repeat constructor; discriminate|]. split; [reflexivity|].
  vm_compute. repeat split; discriminate.
Qed.
Print Assumptions C81_exe_refuted.

(** Hard links into the release tree are among the steps that leave the rest
    alone; a release made of links, where writing without unlinking first would
    change the source file. *)
Lemma link_leaves a dir q : leaves (outside dir) (link a (path_join dir q)).
Proof.
  intros s t Hs. unfold link. destruct (names s a) as [k|] eqn:Ea; [|discriminate].
  destruct (names s (path_join dir q)) eqn:Eb; [discriminate|]. intros H. injection H as <-. split.
  - intros p j. cbn. unfold bind_name. destruct (text_eqb p _); [|apply Hs]. intros H. injection H as <-. now apply (Hs a).
  - intros p Hp. unfold content. cbn. rewrite bind_other; [reflexivity|]. apply Hp.
Qed.

Example C79_case :
  let src := T "gcs/_version.py" in let base := T "gcs-1.0" in
  let s := Fs (fun p => if text_eqb p src then Some 0 else None) [T "import os"] in
  let release := [link src (path_join base src)] in
  let v := Versions (T "1.0") None None None None in
  sound s /\ Forall (leaves (outside base)) release /\ outside base src
  /\ (let '(h, ok) := run_steps (make_release_tree release base src [version_file (dict_of v)]) s in
      ok = true /\ content (final h s) src = Some (T "import os")
      /\ content (final h s) (path_join base src) = Some (version_file (dict_of v)))
  /\ (let '(h, ok) := run_steps (release ++ write_file (path_join base src) [T "x"]) s in
      ok = true /\ content (final h s) src = Some (T "x")).
Proof.
  cbn zeta. split.
  { intros p k. cbn. destruct (text_eqb _ _); [|discriminate]. intros H. injection H as <-. auto. }
  split; [constructor; [apply link_leaves|constructor]|]. split; [intros q; discriminate|].
  split; vm_compute; repeat split.
Qed.

(** * run_command *)

(** At most one command runs: the first that exists.  Its output is the result if
    it exits with 0; commands that do not exist are passed over. *)
Theorem C80_run exec commands :
  let '(r, ran) := run_command exec commands in
  (Forall (fun c => exec c = Missing) commands /\ r = (None, None) /\ ran = [])
  \/ exists missing c rest, commands = missing ++ c :: rest
     /\ Forall (fun c => exec c = Missing) missing
     /\ ((exec c = Refused /\ r = (None, None) /\ ran = [])
         \/ (exists out, exec c = Exited out 0 /\ r = (Some (bstrip out), Some 0%Z) /\ ran = [c])
         \/ (exists out code, exec c = Exited out code /\ code <> 0%Z /\ r = (None, Some code) /\ ran = [c])).
Proof.
  induction commands as [|c commands IH]; cbn [run_command]; [left; auto|].
  destruct (exec c) as [| |out code] eqn:E.
  - destruct (run_command exec commands) as [r ran]. destruct IH as [(H1 & H2 & H3)|(m & d & rest & -> & Hm & H)].
    + left. auto.
    + right. exists (c :: m), d, rest. auto.
  - right. exists [], c, commands. auto 6.
  - destruct (Z.eqb_spec code 0) as [->|Hc]; right; exists [], c, commands; repeat split; auto.
    + right. left. eauto.
    + right. right. eauto 6.
Qed.
Print Assumptions C80_run.

(** There is a result exactly when the first command that exists exits with 0. *)
Theorem C80_result exec commands out :
  fst (fst (run_command exec commands)) = Some out
  <-> exists missing c rest raw, commands = missing ++ c :: rest /\ Forall (fun c => exec c = Missing) missing
        /\ exec c = Exited raw 0 /\ out = bstrip raw.
Proof.
  split.
  - intros H. pose proof (C80_run exec commands) as R. destruct (run_command exec commands) as [r ran]. cbn in H.
    destruct R as [(_ & -> & _)|(m & c & rest & -> & Hm & [(_ & -> & _)|[(raw & Hc & -> & _)|(raw & code & _ & _ & -> & _)]])]; try discriminate H.
    injection H as <-. exists m, c, rest, raw. auto.
  - intros (m & c & rest & raw & -> & Hm & Hc & ->). induction Hm as [|d m Hd _ IH]; cbn [app run_command].
    + now rewrite Hc.
    + now rewrite Hd.
Qed.
Print Assumptions C80_result.

(** git.cmd is tried and git.exe is used. *)
Example C80_case :
  run_command (fun c => if text_eqb c (T "git.exe") then Exited (T "v1.0 ") 0 else Missing) [T "git.cmd"; T "git.exe"]
  = ((Some (T "v1.0"), Some 0%Z), [T "git.exe"]).
Proof. reflexivity. Qed.

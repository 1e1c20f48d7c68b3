(** C81: the version file while an executable is frozen, and after a failure. *)
From Coq Require Import String Ascii Bool Arith ZArith Lia List.
From Verif Require Import Version VersionFacts Versioneer Build PropDist PropBuild.
Import ListNotations.
Open Scope list_scope.

(** [c] is a beginning of [w]. *)
Definition beginning (c w : text) : Prop := exists r, w = c ++ r.
(** In state [t] the file [p] is missing or has a beginning of [w]. *)
Definition partly (p w : text) (t : fs) : Prop :=
  content t p = None \/ exists c, content t p = Some c /\ beginning c w.

Lemma final_app h1 h2 (s : fs) : final (h1 ++ h2) s = final h2 (final h1 s).
Proof. revert s. induction h1 as [|x h1 IH]; intros s; [reflexivity|]. cbn [app]. rewrite !final_cons. apply IH. Qed.

Lemma appends_partly p w chunks : forall s old, sound s -> alone p s -> content s p = Some old -> w = old ++ concat chunks ->
  Forall (partly p w) (fst (run_steps (map (append p) chunks) s)).
Proof.
  induction chunks as [|c chunks IH]; intros s old Hs Ha Hc Hw; cbn [map run_steps]; [constructor|].
  destruct (append_alone p c s old Hs Ha Hc) as (t & -> & Ht & Ht2 & Ht3 & _). cbn [concat] in Hw.
  specialize (IH t (old ++ c) Ht Ht2 Ht3). rewrite <- app_assoc in IH. specialize (IH Hw).
  destruct (run_steps (map (append p) chunks) t) as [h ok]. cbn [fst] in *. constructor; [|exact IH].
  right. exists (old ++ c). split; [exact Ht3|]. exists (concat chunks). now rewrite <- app_assoc.
Qed.

(** Replacing a file: at every point it is missing or has a beginning of the new
    contents, and every other name is untouched. *)
Lemma replace_partly p chunks s : sound s -> names s p <> None ->
  exists h, run_steps (unlink p :: write_file p chunks) s = (h, true)
    /\ Forall (fun t => sound t /\ same_on (fun q => q <> p) s t /\ partly p (concat chunks) t) h
    /\ content (final h s) p = Some (concat chunks)
    /\ exists t h', h = t :: h' /\ names t p = None.
Proof.
  intros Hs Hp. destruct (replace_ok p chunks s Hs Hp) as (h & E & H1 & H2). exists h. split; [exact E|].
  revert E H1 H2. cbn [run_steps write_file map]. destruct (unlink p s) as [t|] eqn:Et.
  2:{ exfalso. unfold unlink in Et. destruct (names s p); [discriminate|congruence]. }
  destruct (unlink_spec p s t Hs Et) as (Ht & Ht2 & _). destruct (open_new p t Ht Ht2) as (u & -> & Hu & Hu2 & Hu3 & _).
  pose proof (appends_partly p (concat chunks) chunks u [] Hu Hu2 Hu3 eq_refl) as P.
  destruct (run_steps (map (append p) chunks) u) as [h0 ok0]. cbn [fst] in P. intros E H1 H2. injection E as <- _.
  split; [|split; [exact H2|exists t, (u :: h0); now split]].
  assert (P' : Forall (partly p (concat chunks)) (t :: u :: h0)).
  { constructor; [left; unfold content; now rewrite Ht2|]. constructor; [right; exists []; split; [exact Hu3|now exists (concat chunks)]|exact P]. }
  revert H1 P'. generalize (t :: u :: h0). clear. induction l as [|x l IH]; intros H1 P; [constructor|].
  inversion H1; inversion P; subst. constructor; [tauto|now apply IH].
Qed.

(** The course of build_exe and py2exe when the source tree has a version file and
    the freezer leaves the files in [P] alone, among them the version file (it may
    create, change and remove all others).  First the version file goes from
    missing over beginnings of the version text to the complete text.  It has this
    text throughout the run of the freezer.  If the freezer succeeds it goes the
    same way to the template, and the command succeeds; if the freezer fails the
    command stops there.  At no point any other file in [P] is changed. *)
Theorem C81_course : forall (P : text -> Prop) s exe source chunks template,
  sound s -> names s source <> None -> P source -> Forall (leaves P) exe ->
  exists s1 h1 h2 h3,
    run_steps (build_exe exe source chunks template) s = (h1 ++ h2 ++ h3, snd (run_steps exe s1))
    /\ s1 = final h1 s /\ h2 = fst (run_steps exe s1)
    /\ Forall (partly source (concat chunks)) h1
    /\ Forall (fun t => content t source = Some (concat chunks)) (s1 :: h2)
    /\ Forall (partly source (concat template)) h3
    /\ (if snd (run_steps exe s1) then content (final h3 s) source = Some (concat template) else h3 = [])
    /\ Forall (same_on (fun q => P q /\ q <> source) s) (h1 ++ h2 ++ h3).
Proof.
  intros P s exe source chunks template Hs Hp HP Hl. unfold build_exe. rewrite run_app. unfold write_to_version_file.
  destruct (replace_partly source chunks s Hs Hp) as (h1 & -> & H1 & H2 & _).
  set (s1 := final h1 s) in *. assert (S1 : sound s1 /\ same_on (fun q => q <> source) s s1).
  { apply (final_Forall (fun t => sound t /\ same_on (fun q => q <> source) s t)); [split; [exact Hs|intros q _; reflexivity]|].
    eapply Forall_impl; [|exact H1]. cbn. tauto. }
  destruct S1 as [S1 S2]. rewrite run_app. pose proof (run_leaves _ _ Hl s1 S1) as L. exists s1, h1.
  assert (F1 : Forall (partly source (concat chunks)) h1) by (eapply Forall_impl; [|exact H1]; cbn; tauto).
  assert (F2 : Forall (same_on (fun q => P q /\ q <> source) s) h1).
  { eapply Forall_impl; [|exact H1]. cbn. intros t (_ & Ht & _) q [_ Hq]. now apply Ht. }
  destruct (run_steps exe s1) as [h2 ok2]. cbn [fst snd] in *. exists h2.
  assert (F3 : Forall (same_on (fun q => P q /\ q <> source) s) h2).
  { eapply Forall_impl; [|exact L]. cbn. intros t [_ Ht] q [HPq Hq]. now rewrite (Ht q HPq), S2. }
  assert (F4 : Forall (fun t => content t source = Some (concat chunks)) (s1 :: h2)).
  { constructor; [exact H2|]. eapply Forall_impl; [|exact L]. cbn. intros t [_ Ht]. now rewrite (Ht source HP). }
  destruct ok2.
  2:{ exists []. rewrite app_nil_r. repeat split; auto. apply Forall_app. now split. }
  set (s2 := final h2 s1).
  assert (S3 : sound s2 /\ same_on P s1 s2).
  { apply (final_Forall (fun t => sound t /\ same_on P s1 t)); [split; [exact S1|intros q _; reflexivity]|exact L]. }
  destruct S3 as [S3 S4].
  assert (N2 : names s2 source <> None).
  { intros N. specialize (S4 source HP). rewrite H2 in S4. unfold content in S4. rewrite N in S4. discriminate. }
  destruct (replace_partly source template s2 S3 N2) as (h3 & -> & H5 & H6 & (t3 & h3' & -> & _)). exists (t3 :: h3').
  split; [reflexivity|]. split; [reflexivity|]. split; [reflexivity|]. split; [exact F1|]. split; [exact F4|].
  split; [eapply Forall_impl; [|exact H5]; cbn; tauto|]. split; [now rewrite final_cons in *|].
  apply Forall_app. split; [exact F2|]. apply Forall_app. split; [exact F3|]. eapply Forall_impl; [|exact H5]. cbn.
  intros t (_ & Ht & _) q [HPq Hq]. now rewrite (Ht q Hq), (S4 q HPq), S2.
Qed.
Print Assumptions C81_course.

(** Whenever the freezer fails, the computed version stays in the source tree, and
    setup.py takes it for the version of the tree from then on, whatever is
    committed or tagged later. *)
Theorem C81_stale_refuted : forall (P : text -> Prop) s exe source v chunks template,
  sound s -> names s source <> None -> P source -> Forall (leaves P) exe -> concat chunks = version_file (dict_of v) ->
  snd (run_steps (build_exe exe source chunks template) s) = false ->
  exists c, content (final (fst (run_steps (build_exe exe source chunks template) s)) s) source = Some c
    /\ forall g, setup_get_versions c g = VOk (dict_of v).
Proof.
  intros P s exe source v chunks template Hs Hp HP Hl Hc Hok.
  destruct (C81_course P s exe source chunks template Hs Hp HP Hl) as (s1 & h1 & h2 & h3 & E & -> & -> & _ & H2 & _ & H3 & _).
  rewrite E in *. cbn [fst snd] in *. rewrite Hok in H3. subst h3. rewrite app_nil_r, final_app.
  exists (version_file (dict_of v)). split; [|intros g; apply C73_setup]. rewrite <- Hc.
  inversion H2 as [|? ? X1 X2]; subst. now apply (final_Forall (fun t => content t source = Some (concat chunks))).
Qed.
Print Assumptions C81_stale_refuted.

(** Stopped right after its first step, the command leaves a tree without a version
    file, in which it always fails at once and changes nothing. *)
Theorem C81_lost_refuted : forall s exe source chunks template, sound s -> names s source <> None ->
  exists t h, fst (run_steps (build_exe exe source chunks template) s) = t :: h /\ content t source = None
    /\ forall exe' chunks' template', run_steps (build_exe exe' source chunks' template') t = ([], false).
Proof.
  intros s exe source chunks template Hs Hp. unfold build_exe at 1. rewrite run_app. unfold write_to_version_file.
  destruct (replace_partly source chunks s Hs Hp) as (h1 & -> & _ & _ & (t & h' & -> & Ht)). exists t.
  assert (X : exists h, fst (let '(h2, ok2) := run_steps (exe ++ unlink source :: write_file source template) (final (t :: h') s) in ((t :: h') ++ h2, ok2)) = t :: h).
  { destruct (run_steps _ (final (t :: h') s)) as [h2 ok2]. now exists (h' ++ h2). }
  destruct X as (h & X). exists h. split; [exact X|]. split; [unfold content; now rewrite Ht|].
  intros exe' chunks' template'. unfold build_exe. rewrite run_app. unfold write_to_version_file. now rewrite (replace_missing source chunks' t Ht).
Qed.
Print Assumptions C81_lost_refuted.

(** A tree with a version file and a second link to it; the freezer makes a new
    file, which fails if there is one. *)
Definition create (p c : text) : step := fun s =>
  match names s p with Some _ => None | None => Some (Fs (bind_name (names s) p (Some (length (files s)))) (files s ++ [c])) end.
Lemma create_leaves p c : leaves (fun q => q <> p) (create p c).
Proof.
  intros s t Hs. unfold create. destruct (names s p) as [k|] eqn:E; [discriminate|]. intros H. injection H as <-. split.
  - intros q j. cbn. rewrite app_length. cbn. unfold bind_name. destruct (text_eqb q p).
    + intros H. injection H as <-. lia.
    + intros H. specialize (Hs q j H). lia.
  - intros q Hq. unfold content. cbn. rewrite bind_other by exact Hq. destruct (names s q) as [k|] eqn:Ek; [|reflexivity].
    apply nth_error_app1. now apply (Hs q).
Qed.
Example C81_case :
  let src := T "gcs/_version.py" in let exe := T "dist/gcs.exe" in
  let s := Fs (fun p => if text_eqb p src then Some 0 else if text_eqb p (T "backup.py") then Some 0 else None) [T "import os"] in
  let v := Versions (T "1.0") None None None None in
  let command := build_exe [create exe (T "x")] src [version_file (dict_of v)] [T "import "; T "os"] in
  sound s /\ names s src <> None /\ src <> exe /\ Forall (leaves (fun q => q <> exe)) [create exe (T "x")]
  /\ (let '(h, ok) := run_steps command s in
      ok = true /\ map (fun p => content (final h s) p) [src; exe; T "backup.py"] = [Some (T "import os"); Some (T "x"); Some (T "import os")]
      /\ snd (run_steps command (final h s)) = false).
Proof.
  cbv zeta. split; [|split; [vm_compute; discriminate|split; [discriminate|split; [constructor; [apply create_leaves|constructor]|vm_compute; repeat split]]]].
  intros p k. cbn. destruct (text_eqb _ _); [|destruct (text_eqb _ _); [|discriminate]]; intros H; injection H as <-; auto.
Qed.

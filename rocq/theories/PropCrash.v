(** C90: a version file that was not written to its end, or was damaged. *)
From Coq Require Import String Ascii ZArith NArith Bool List Lia.
Import ListNotations.
From Verif Require Import Version VersionFacts Versioneer PropVersion PropDist PropImport.
Open Scope list_scope.

(** * Where the text ''' occurs *)
Definition guarded (t : text) : Prop :=
  forall s a b, t ++ s = a ++ T "'''" ++ b -> exists a', a = t ++ a'.

Lemma guarded_app t u : guarded t -> guarded u -> guarded (t ++ u).
Proof.
  intros Ht Hu s a b E. rewrite <- app_assoc in E. destruct (Ht _ _ _ E) as (a1 & ->).
  rewrite <- app_assoc in E. apply app_inv_head in E. destruct (Hu _ _ _ E) as (a2 & ->).
  exists a2. now rewrite app_assoc.
Qed.

Lemma guarded_char c : c <> "'"%char -> guarded [c].
Proof.
  intros Hc s a b E. destruct a as [|x a]; cbn in E; injection E as E1 E2; [congruence|]. exists a. now subst.
Qed.

Lemma guarded_plain t : Forall (fun c => c <> "'"%char) t -> guarded t.
Proof.
  induction 1 as [|c t Hc _ IH]; [intros s a b E; now exists a|].
  change (c :: t) with ([c] ++ t). apply guarded_app; [now apply guarded_char|exact IH].
Qed.

Lemma json_char_plain c : c <> "'"%char -> Forall (fun x => x <> "'"%char) (json_char c).
Proof.
  intros H. destruct c as [[] [] [] [] [] [] [] []]; try congruence; repeat constructor; discriminate.
Qed.

Lemma guarded_text t : inside t -> guarded (flat_map json_char t ++ [quote]).
Proof.
  induction t as [|c t IH]; intros Hi.
  - apply guarded_plain. repeat constructor; discriminate.
  - specialize (IH (inside_tail _ _ Hi)). cbn [flat_map]. rewrite <- app_assoc.
    destruct (Ascii.eqb_spec c "'") as [->|Hn].
    + change (json_char "'") with (T "'"). intros s a b E.
      destruct a as [|x a].
      * exfalso. rewrite <- !app_assoc in E. cbn [T list_ascii_of_string app] in E. injection E as E.
        destruct t as [|c1 t1]; [discriminate E|]. cbn [flat_map] in E.
        destruct (json_char_nonempty c1) as (x1 & r1 & E1). rewrite E1 in E. cbn [app] in E. injection E as -> E.
        pose proof (json_char_apostrophe c1 _ E1) as ->. injection E1 as <-. cbn [app] in E.
        destruct t1 as [|c2 t2]; [discriminate E|]. cbn [flat_map] in E.
        destruct (json_char_nonempty c2) as (x2 & r2 & E2). rewrite E2 in E. cbn [app] in E. injection E as -> E.
        pose proof (json_char_apostrophe c2 _ E2) as ->. now apply (Hi [] t2).
      * cbn [T list_ascii_of_string app] in E. injection E as <- E.
        destruct (IH s a b) as (a' & ->); [exact E|]. now exists a'.
    + apply guarded_app; [apply guarded_plain; now apply json_char_plain|exact IH].
Qed.

Lemma guarded_json_text t : inside t -> guarded (json_text t).
Proof.
  intros H. unfold json_text. change (quote :: flat_map json_char t ++ [quote]) with ([quote] ++ flat_map json_char t ++ [quote]).
  apply guarded_app; [apply guarded_char; discriminate|now apply guarded_text].
Qed.

Lemma guarded_member m : inside (fst m) -> match snd m with JText t => inside t | _ => True end -> guarded (json_member m).
Proof.
  intros H1 H2. unfold json_member.
  apply guarded_app; [apply guarded_plain; repeat constructor; discriminate|].
  apply guarded_app; [now apply guarded_json_text|].
  apply guarded_app; [apply guarded_plain; repeat constructor; discriminate|].
  destruct (snd m) as [|[]|t]; cbn [json_val]; try (apply guarded_plain; repeat constructor; discriminate).
  now apply guarded_json_text.
Qed.

Lemma guarded_members d : Forall inside (texts d) -> guarded (json_members d).
Proof.
  induction d as [|m d IH]; intros H; [intros s a b E; now exists a|].
  unfold texts in H. cbn [flat_map] in H. apply Forall_app in H. destruct H as [Hm Hd].
  assert (Gm : guarded (json_member m)).
  { apply guarded_member; [now inversion Hm|]. destruct m as [k [|b|t]]; cbn [snd] in *; trivial.
    cbn in Hm. inversion Hm as [|? ? ? Hm']. now inversion Hm'. }
  destruct d as [|m' d]; [exact Gm|].
  change (json_members (m :: m' :: d)) with (json_member m ++ T "," ++ [newline] ++ json_members (m' :: d)).
  apply guarded_app; [exact Gm|].
  apply guarded_app; [apply guarded_plain; repeat constructor; discriminate|].
  apply guarded_app; [apply guarded_plain; repeat constructor; discriminate|].
  now apply IH.
Qed.

(** The file up to the closing marker. *)
Definition opening (d : dict) : text := template_head ++ template_open ++ newline :: json_dumps d ++ [newline].

Lemma version_file_parts d : version_file d = opening d ++ template_close ++ template_tail.
Proof. unfold version_file, opening. rewrite <- !app_assoc. cbn [app]. now rewrite <- !app_assoc. Qed.

Fixpoint no_mark (t : text) : bool :=
  match t with
  | [] => true
  | c :: r =>
      (negb (Ascii.eqb c "'")
       || match r with
          | [] => false
          | c1 :: r1 => negb (Ascii.eqb c1 "'")
                        || match r1 with [] => false | c2 :: _ => negb (Ascii.eqb c2 "'") end
          end) && no_mark r
  end.

Lemma guarded_check t : no_mark t = true -> guarded t.
Proof.
  induction t as [|c t IH]; [intros _ s a b E; now exists a|]. cbn [no_mark]. intros H.
  apply andb_prop in H. destruct H as [H1 H2]. intros s a b E. destruct a as [|x a].
  - exfalso. cbn in E. injection E as -> E. cbn in H1. destruct t as [|c1 t]; [discriminate|].
    cbn in E. injection E as -> E. cbn in H1. destruct t as [|c2 t]; [discriminate|].
    cbn in E. injection E as -> E. discriminate H1.
  - cbn in E. injection E as -> E. destruct (IH H2 s a b E) as (a' & ->). now exists a'.
Qed.

(** The closing marker occurs nowhere before its place. *)
Lemma close_place d a b s : Forall inside (texts d) -> opening d ++ s = a ++ template_close ++ b ->
  exists a', a = opening d ++ a'.
Proof.
  intros Hi E.
  set (P := template_head ++ T "version_json = ") in *.
  set (J := newline :: json_dumps d ++ [newline]) in *.
  assert (EP : opening d = P ++ T "'''" ++ J) by (unfold opening, P, J; rewrite <- !app_assoc; reflexivity).
  rewrite EP in *. clear EP.
  assert (GP : guarded P) by (apply guarded_check; vm_compute; reflexivity).
  assert (GJ : guarded J).
  { unfold J, json_dumps. change (newline :: (T "{" ++ newline :: json_members d ++ newline :: T "}") ++ [newline])
      with ((newline :: T "{" ++ [newline]) ++ ((json_members d ++ newline :: T "}") ++ [newline])).
    apply guarded_app; [apply guarded_check; reflexivity|]. rewrite <- app_assoc.
    apply guarded_app; [now apply guarded_members|apply guarded_check; reflexivity]. }
  change template_close with (T "'''" ++ T "  # END VERSION_JSON") in E. rewrite <- !app_assoc in E.
  destruct (GP _ _ _ E) as (a1 & ->). rewrite <- app_assoc in E. apply app_inv_head in E.
  destruct a1 as [|x1 a1]; [exfalso; discriminate E|]. cbn [T list_ascii_of_string app] in E. injection E as <- E.
  destruct a1 as [|x2 a1]; [exfalso; discriminate E|]. cbn [app] in E. injection E as <- E.
  destruct a1 as [|x3 a1]; [exfalso; discriminate E|]. cbn [app] in E. injection E as <- E.
  destruct (GJ s a1 (T "  # END VERSION_JSON" ++ b)) as (a2 & ->); [exact E|].
  exists a2. rewrite <- !app_assoc. reflexivity.
Qed.

(** * Searching *)
Lemma rindex_from_sound p s : forall k j, rindex_from k p s = Some j ->
  exists u v, s = u ++ p ++ v /\ j = (k + length u)%nat.
Proof.
  induction s as [|c s IH]; intros k j H; cbn [rindex_from] in H.
  - destruct (starts_with p []) eqn:E; [|discriminate]. injection H as <-. apply starts_with_iff in E.
    destruct E as (r & E). exists [], r. split; [exact E|]. cbn. lia.
  - destruct (rindex_from (S k) p s) as [i|] eqn:Ei.
    + injection H as <-. destruct (IH _ _ Ei) as (u & v & -> & ->). exists (c :: u), v. split; [reflexivity|]. cbn. lia.
    + destruct (starts_with p (c :: s)) eqn:E; [|discriminate]. injection H as <-. apply starts_with_iff in E.
      destruct E as (r & E). exists [], r. split; [exact E|]. cbn. lia.
Qed.

Lemma search_between_sound pre post s t : search_between pre post s = Some t ->
  exists a b, s = a ++ pre ++ t ++ post ++ b.
Proof.
  assert (H : forall s, (if starts_with pre s
              then option_map (fun k => firstn k (skipn (length pre) s)) (rindex post (skipn (length pre) s))
              else None) = Some t -> exists b, s = pre ++ t ++ post ++ b).
  { clear s. intros s H. destruct (starts_with pre s) eqn:E; [|discriminate]. apply starts_with_iff in E.
    destruct E as (r & ->). rewrite skipn_app_len in H. destruct (rindex post r) as [k|] eqn:Ek; [|discriminate].
    injection H as <-. destruct (rindex_from_sound _ _ _ _ Ek) as (u & v & -> & ->).
    exists v. cbn [Nat.add]. now rewrite firstn_app_len. }
  induction s as [|c s IH]; cbn [search_between]; intros E.
  - destruct (if starts_with pre [] then _ else _) as [t'|] eqn:E1; [|discriminate]. injection E as ->.
    destruct (H _ E1) as (b & Eb). now exists [], b.
  - destruct (if starts_with pre (c :: s) then _ else _) as [t'|] eqn:E1.
    + injection E as ->. destruct (H _ E1) as (b & Eb). now exists [], b.
    + destruct (IH E) as (a & b & ->). now exists (c :: a), b.
Qed.

(** * Lines of a part of a text *)
Lemma split_prefix c : forall a b, exists w ws w' ws', split_on c a = w :: ws /\ split_on c (a ++ b) = w' :: ws'
  /\ (exists z, w' = w ++ z) /\ forall l, In l ws -> exists l' z, In l' ws' /\ l' = l ++ z.
Proof.
  induction a as [|x a IH]; intros b.
  - cbn [split_on app].
    assert (N : exists w' ws', split_on c b = w' :: ws').
    { destruct b as [|y b]; cbn [split_on]; [eauto|]. destruct (Ascii.eqb y c); [eauto|]. destruct (split_on c b); eauto. }
    destruct N as (w' & ws' & ->). exists [], [], w', ws'. repeat split; [now exists w'|]. intros l [].
  - cbn [split_on app]. destruct (IH b) as (w & ws & w' & ws' & -> & -> & (z & Hz) & Hl).
    destruct (Ascii.eqb x c).
    + exists [], (w :: ws), [], (w' :: ws'). repeat split; [now exists []|]. intros l [<-|Hin].
      * exists w', z. split; [now left|exact Hz].
      * destruct (Hl l Hin) as (l' & z' & H1 & H2). exists l', z'. split; [now right|exact H2].
    + exists (x :: w), ws, (x :: w'), ws'. repeat split; [exists z; now rewrite Hz|exact Hl].
Qed.

Lemma lstrip_split f s : exists p, s = p ++ lstrip_by f s /\ Forall (fun c => f c = true) p.
Proof.
  induction s as [|c s IH]; cbn [lstrip_by]; [now exists []|]. destruct (f c) eqn:E; [|now exists []].
  destruct IH as (p & Hp & Hf). exists (c :: p). split; [cbn; now rewrite <- Hp|now constructor].
Qed.

Lemma strip_split f s : exists p q, s = p ++ strip_by f s ++ q /\ Forall (fun c => f c = true) p.
Proof.
  destruct (lstrip_split f s) as (p & Hp & Hf). destruct (lstrip_split f (rev (lstrip_by f s))) as (q & Hq & _).
  exists p, (rev q). split; [|exact Hf]. rewrite Hp at 1. f_equal. unfold strip_by.
  rewrite <- rev_app_distr, <- Hq. now rewrite rev_involutive.
Qed.

(** A text of nonblank characters at both ends is kept by strip. *)
Lemma strip_start f p u c r : Forall (fun x => f x = true) p -> f c = false ->
  match u with [] => True | x :: _ => f x = false end ->
  exists r', strip_by f (p ++ (u ++ [c]) ++ r) = (u ++ [c]) ++ r'.
Proof.
  intros Hp Hc Hu. unfold strip_by. rewrite lstrip_by_pad by exact Hp.
  rewrite (lstrip_by_stop f ((u ++ [c]) ++ r)) by (destruct u; cbn; assumption).
  rewrite rev_app_distr, (rev_app_distr u [c]). cbn [rev app].
  assert (G : forall x y, exists z, lstrip_by f (x ++ c :: y) = z ++ c :: y).
  { induction x as [|a x IH]; intros y; cbn [app lstrip_by].
    - rewrite Hc. now exists [].
    - destruct (f a); [apply IH|]. now exists (a :: x). }
  destruct (G (rev r) (rev u)) as (z & ->). rewrite rev_app_distr. cbn [rev]. rewrite rev_involutive.
  exists (rev z). reflexivity.
Qed.

Lemma other_prefix l z : other_line (l ++ z) -> other_line l.
Proof.
  intros H name Hn. specialize (H name Hn). destruct (starts_with (name ++ T " =") (strip l)) eqn:E; [|reflexivity].
  exfalso. apply starts_with_iff in E. destruct E as (r & E). unfold strip in *.
  destruct (strip_split is_space l) as (p & q & El & Hp). rewrite El, E, <- !app_assoc in H.
  destruct (strip_start is_space p (name ++ T " ") "="%char (r ++ q ++ z) Hp eq_refl) as (r' & E').
  { destruct Hn as [<-|[<-|[<-|[]]]]; reflexivity. }
  assert (E2 : p ++ name ++ T " =" ++ r ++ q ++ z = p ++ ((name ++ T " ") ++ ["="%char]) ++ r ++ q ++ z)
    by (rewrite <- !app_assoc; reflexivity).
  rewrite E2, E' in H. 
  assert (E3 : ((name ++ T " ") ++ ["="%char]) ++ r' = (name ++ T " =") ++ r') by (rewrite <- !app_assoc; reflexivity).
  rewrite E3, starts_with_app in H. discriminate.
Qed.

Lemma other_lines_prefix a b : Forall other_line (split_on newline (a ++ b)) -> Forall other_line (split_on newline a).
Proof.
  intros H. destruct (split_prefix newline a b) as (w & ws & w' & ws' & -> & E & (z & Hz) & Hl). rewrite E in H.
  inversion H as [|? ? Hw Hws]; subst. constructor; [eapply other_prefix; exact Hw|].
  apply Forall_forall. intros l Hin. destruct (Hl l Hin) as (l' & z' & H1 & ->).
  rewrite Forall_forall in Hws. exact (other_prefix l z' (Hws _ H1)).
Qed.

Lemma no_keywords_of contents : Forall other_line (split_on newline contents) ->
  git_get_keywords contents = Keywords None None None.
Proof.
  intros G. unfold git_get_keywords, keyword_lines. rewrite !keyword_other; [reflexivity|..]; try exact G; cbn; tauto.
Qed.

Lemma file_lines d : d <> [] -> Forall other_line (split_on newline (version_file d)).
Proof.
  intros Hne.
  assert (E : version_file d = T "" ++ newline :: T "# This file was generated by 'versioneer.py' (0.18) from"
      ++ newline :: T "# revision-control system data, or from the parent directory name of an"
      ++ newline :: T "# unpacked source archive. Distribution tarballs contain a pre-generated copy"
      ++ newline :: T "# of this file." ++ newline :: T "" ++ newline :: T "import json" ++ newline :: T ""
      ++ newline :: template_open ++ newline :: T "{" ++ newline :: json_members d ++ newline :: T "}"
      ++ newline :: template_close ++ template_tail).
  { unfold version_file, json_dumps. cbn [template_head unlines T list_ascii_of_string app].
    rewrite <- !app_assoc. cbn [app]. try rewrite <- !app_assoc. reflexivity. }
  rewrite E. clear E.
  repeat (rewrite split_on_app; [constructor; [intros name [<-|[<-|[<-|[]]]]; reflexivity|]
                                |cbn; intros H; repeat (destruct H as [H|H]; [discriminate H|]); exact H]).
  apply split_members; [exact Hne|].
  vm_compute split_on. repeat (constructor; [intros name [<-|[<-|[<-|[]]]]; reflexivity|]). constructor.
Qed.

Lemma rindex_close_cut k m : rindex_from k template_close (template_close ++ firstn m template_tail) = Some k.
Proof.
  assert (G : forall m, (m <= length template_tail)%nat ->
    rindex_from k template_close (template_close ++ firstn m template_tail) = Some k).
  { clear m. intros m Hm.
    assert (H : Forall (fun m => forall k, rindex_from k template_close (template_close ++ firstn m template_tail) = Some k)
                       (seq 0 (S (length template_tail)))).
    { vm_compute seq. repeat (constructor; [intros; vm_compute; reflexivity|]). constructor. }
    rewrite Forall_forall in H. apply H, in_seq. lia. }
  destruct (Nat.le_gt_cases m (length template_tail)) as [H|H]; [now apply G|].
  rewrite firstn_all2 by lia. rewrite <- (firstn_all template_tail). now apply G.
Qed.

(** * C90 *)

(** The part of the file that has to be written: up to the end of the closing
    marker. *)
Definition needed (d : dict) : nat := length (opening d ++ template_close).

(** Once this part is written, setup.py gets the dictionary. *)
Theorem C90_complete : forall d g k, d <> [] -> (needed d <= k)%nat ->
  setup_get_versions (firstn k (version_file d)) g = VOk d.
Proof.
  intros d g k Hne Hk. unfold setup_get_versions.
  rewrite no_keywords_of.
  2:{ apply (other_lines_prefix _ (skipn k (version_file d))). rewrite firstn_skipn. now apply file_lines. }
  cbn [git_versions_from_keywords vbind otherwise].
  assert (E : firstn k (version_file d) = template_head ++ (template_open ++ [newline]) ++ (json_dumps d ++ [newline])
      ++ template_close ++ firstn (k - needed d) template_tail).
  { rewrite version_file_parts, app_assoc. rewrite firstn_app. fold (needed d).
    rewrite firstn_all2 by exact Hk. unfold opening. rewrite <- !app_assoc. cbn [app]. rewrite <- !app_assoc. reflexivity. }
  unfold versions_from_file. rewrite E, search_head. rewrite search_between_here by apply rindex_close_cut.
  assert (J : json_loads (json_dumps d ++ [newline]) = VOk d).
  { rewrite json_dumps_with. apply (json_loads_dumps _ d Hne) with (pre := []) (post := [newline]);
      [|now constructor|now repeat constructor].
    apply Forall_forall. intros t _. apply json_readable. }
  now rewrite J.
Qed.
Print Assumptions C90_complete.

Lemma cut_unread d k pre : Forall inside (texts d) -> (k < needed d)%nat ->
  search_between pre template_close (firstn k (version_file d)) = None.
Proof.
  intros Hi Hk. destruct (search_between _ _ _) as [t|] eqn:E; [|reflexivity]. exfalso.
  apply search_between_sound in E. destruct E as (a & b & E).
  assert (E2 : opening d ++ template_close ++ template_tail
               = (a ++ pre ++ t) ++ template_close ++ b ++ skipn k (version_file d)).
  { rewrite <- version_file_parts. rewrite <- (firstn_skipn k (version_file d)) at 1. rewrite E.
    now rewrite <- !app_assoc. }
  destruct (close_place d _ _ _ Hi E2) as (a' & Ea).
  assert (L : length (firstn k (version_file d)) = length ((a ++ pre ++ t) ++ template_close ++ b))
    by (rewrite E, <- !app_assoc; reflexivity).
  rewrite Ea in L. pose proof (firstn_le_length k (version_file d)). rewrite !app_length in L. unfold needed in Hk.
  rewrite app_length in Hk. lia.
Qed.

(** Before that, setup.py does what it does without a version file. *)
Theorem C90_interrupted : forall d g k, d <> [] -> Forall inside (texts d) -> (k < needed d)%nat ->
  setup_get_versions (firstn k (version_file d)) g = setup_get_versions [] g.
Proof.
  intros d g k Hne Hi Hk. unfold setup_get_versions at 1.
  rewrite no_keywords_of.
  2:{ apply (other_lines_prefix _ (skipn k (version_file d))). rewrite firstn_skipn. now apply file_lines. }
  unfold versions_from_file. now rewrite !cut_unread.
Qed.
Print Assumptions C90_interrupted.

(** Outside a checkout this is no version at all. *)
Theorem C90_unknown_partial : forall d g k, d <> [] -> Forall inside (texts d) -> (k < needed d)%nat -> g_dir g = None ->
  setup_get_versions (firstn k (version_file d)) g
  = VOk (dict_of (Versions (T "0+unknown") None None (Some (T "unable to compute version")) None)).
Proof.
  intros d g k Hne Hi Hk Hg. rewrite C90_interrupted by assumption. destruct g as [gd ? ? ? ?]. cbn in Hg. subst gd.
  reflexivity.
Qed.
Print Assumptions C90_unknown_partial.

(** But inside a checkout, of this or any other project with tags of this form, it
    is the version of the checkout. *)
Lemma setup_without_file file g v : get_versions repo_keywords (Some file) g = VOk v ->
  setup_get_versions [] g = VOk (dict_of v).
Proof.
  unfold get_versions, get_versions_with. change (git_versions_from_keywords repo_keywords cfg_tag_prefix) with (@VRaise versions NotThisMethod).
  cbn [otherwise]. unfold setup_get_versions.
  change (git_get_keywords []) with (Keywords None None None).
  cbn [git_versions_from_keywords vbind otherwise].
  change (versions_from_file []) with (@VRaise dict NotThisMethod). cbn [otherwise].
  destruct (git_pieces_from_vcs cfg_tag_prefix g) as [p|[]]; cbn [vbind otherwise]; try discriminate.
  - destruct (render p cfg_style) as [w|[]]; cbn [vbind otherwise]; try discriminate; now intros [= <-].
  - now intros [= <-].
Qed.

Theorem C90_enclosing_checkout_refuted : forall d k tag n hex dirty head count day time zone gdir b1 b2 b3 b4,
  d <> [] -> Forall inside (texts d) -> (k < needed d)%nat ->
  tag <> [] -> ~ In newline tag -> hex_name hex -> word head -> word day -> word time -> word zone ->
  blank b1 -> blank b2 -> blank b4 ->
  exists v,
  setup_get_versions (firstn k (version_file d))
    (Git (Some gdir) (Some (describe_output (T "v" ++ tag) n hex dirty ++ b1)) (Some (head ++ b2))
         (option_map (fun c => c ++ b3) count) (Some ((day ++ T " " ++ time ++ T " " ++ zone) ++ b4))) = VOk (dict_of v)
  /\ v_version v = checkout_version tag n hex dirty /\ v_error v = None.
Proof.
  intros d k tag n hex dirty head count day time zone gdir b1 b2 b3 b4 Hne Hi Hk Ht Hnl Hh Hhead Hd Hti Hz B1 B2 B4.
  eexists. split; [|split].
  - rewrite C90_interrupted by assumption. apply (setup_without_file (T "/src/gcs/_version.py")). now apply C64_checkout.
  - reflexivity.
  - reflexivity.
Qed.
Print Assumptions C90_enclosing_checkout_refuted.

(** * Damaged files *)
Lemma rindex_from_complete p u v : forall k, rindex_from k p (u ++ p ++ v) <> None.
Proof.
  induction u as [|c u IH]; intros k.
  - cbn [app]. destruct (p ++ v) as [|x r] eqn:E; cbn [rindex_from]; rewrite <- E, starts_with_app; [discriminate|].
    now destruct (rindex_from (S k) p r).
  - cbn [app rindex_from]. destruct (rindex_from (S k) p (u ++ p ++ v)) eqn:E; [discriminate|]. now apply IH in E.
Qed.

Lemma search_between_complete pre post a t b : search_between pre post (a ++ pre ++ t ++ post ++ b) <> None.
Proof.
  induction a as [|c a IH].
  - cbn [app]. destruct (pre ++ t ++ post ++ b) as [|x r] eqn:E; cbn [search_between]; rewrite <- E, starts_with_app, skipn_app_len;
      unfold rindex; pose proof (rindex_from_complete post t b 0) as R;
      destruct (rindex_from 0 post (t ++ post ++ b)); try congruence; discriminate.
  - cbn [app search_between]. destruct (if starts_with pre (c :: a ++ pre ++ t ++ post ++ b) then _ else _); [discriminate|exact IH].
Qed.

(** An exception of json.loads. *)
Definition json_error {A} (m : vres A) : Prop :=
  forall e, m = VRaise e -> e = VValueError \/ e = VOutOfModel.

Lemma json_error_bind {A B} (m : vres A) (f : A -> vres B) :
  json_error m -> (forall x, json_error (f x)) -> json_error (vbind m f).
Proof. intros Hm Hf e. destruct m as [x|e']; cbn [vbind]; [apply Hf|]. intros [= <-]. now apply Hm. Qed.

Lemma json_string_error : forall n s, (length s <= n)%nat -> json_error (json_string s).
Proof.
  assert (OK : forall (x : text * text), json_error (VOk x)) by (intros x e; discriminate).
  assert (VE : json_error (@VRaise (text * text) VValueError)) by (intros e [= <-]; now left).
  assert (HX : forall a b c d, json_error (hex4 a b c d)).
  { intros a b c d e. unfold hex4. repeat match goal with |- context [match ?o with _ => _ end] => destruct o end;
      try discriminate; intros [= <-]; auto. }
  induction n as [|n IH]; intros s Hn; (destruct s as [|c s]; [exact VE|]); cbn [length] in Hn; [lia|]. cbn [json_string].
  assert (AC : forall x m, json_error m -> json_error (after_char x m)).
  { intros x m Hm. unfold after_char. apply json_error_bind; [exact Hm|]. intros [u v]. apply OK. }
  destruct (Ascii.eqb c quote); [apply OK|]. destruct (Ascii.eqb c "\").
  - destruct s as [|e s]; [exact VE|]. cbn [length] in Hn. destruct (Ascii.eqb e "u").
    + destruct s as [|h1 [|h2 [|h3 [|h4 s]]]]; try exact VE. cbn [length] in Hn. apply json_error_bind; [apply HX|].
      intros x. apply AC, IH. lia.
    + destruct (simple_escape e); [|exact VE]. apply AC, IH. lia.
  - destruct (nat_of_ascii c <? 32)%nat; [exact VE|]. apply AC, IH. lia.
Qed.

Lemma json_value_error s : json_error (json_value s).
Proof.
  unfold json_value. destruct s as [|c s]; [intros e [= <-]; now left|].
  destruct (Ascii.eqb c quote).
  { apply json_error_bind; [now apply (json_string_error (length s))|]. intros [u v] e. discriminate. }
  repeat (match goal with |- json_error (if ?b then _ else _) => destruct b end; [intros e; try discriminate; intros [= <-]; now right|]).
  intros e [= <-]. now left.
Qed.

Lemma json_object_error fuel : forall s, json_error (json_object fuel s).
Proof.
  induction fuel as [|fuel IH]; intros s; cbn [json_object]; [intros e [= <-]; now right|].
  assert (VE : json_error (@VRaise (dict * text) VValueError)) by (intros e [= <-]; now left).
  destruct s as [|q s]; [exact VE|]. destruct (Ascii.eqb q quote); [|exact VE].
  apply json_error_bind; [now apply (json_string_error (length s))|]. intros [k r1].
  destruct (skip_space r1) as [|c r2]; [exact VE|]. destruct (Ascii.eqb c ":"); [|exact VE].
  apply json_error_bind; [apply json_value_error|]. intros [v r3].
  destruct (skip_space r3) as [|e r4]; [exact VE|]. destruct (Ascii.eqb e "}"); [intros e'; discriminate|].
  destruct (Ascii.eqb e ","); [|exact VE]. apply json_error_bind; [apply IH|]. intros [d r5] e'. discriminate.
Qed.

Lemma json_loads_error s : json_error (json_loads s).
Proof.
  unfold json_loads. assert (VE : json_error (@VRaise dict VValueError)) by (intros e [= <-]; now left).
  destruct (skip_space s) as [|c r]; [exact VE|]. destruct (Ascii.eqb c "{"); [|intros e [= <-]; now right].
  destruct (skip_space r) as [|e r1]; [exact VE|]. destruct (Ascii.eqb e "}").
  - destruct (skip_space r1); [intros e'; discriminate|exact VE].
  - apply json_error_bind; [apply json_object_error|]. intros [d r2]. destruct (skip_space r2); [intros e'; discriminate|exact VE].
Qed.

(** A file with both markers and no keywords is never passed over: setup.py takes
    the dictionary from it or stops with a ValueError (texts with JSON numbers,
    arrays, nested objects or characters outside Latin-1 are outside the model),
    whatever git says. *)
Theorem C90_damaged : forall contents a t b,
  contents = a ++ T "version_json = " ++ T "'''" ++ newline :: t ++ T "'''" ++ T "  # END VERSION_JSON" ++ b ->
  Forall other_line (split_on newline contents) ->
  exists r, (forall g, setup_get_versions contents g = r)
    /\ ((exists d, r = VOk d) \/ r = VRaise VValueError \/ r = VRaise VOutOfModel).
Proof.
  intros contents a t b E Ho. exists (versions_from_file contents).
  assert (R : exists u, versions_from_file contents = json_loads u).
  { unfold versions_from_file. change pattern_open with template_open. change pattern_close with template_close.
    destruct (search_between (template_open ++ [newline]) template_close contents) as [u|] eqn:Es; [now exists u|]. exfalso.
    apply (search_between_complete (template_open ++ [newline]) template_close a t b).
    rewrite <- Es, E. f_equal. }
  destruct R as (u & Eu). split.
  - intros g. unfold setup_get_versions. rewrite no_keywords_of by exact Ho.
    cbn [git_versions_from_keywords vbind otherwise]. rewrite Eu.
    pose proof (json_loads_error u) as J. destruct (json_loads u) as [d|e]; [reflexivity|].
    destruct (J e eq_refl) as [-> | ->]; reflexivity.
  - rewrite Eu. pose proof (json_loads_error u) as J. destruct (json_loads u) as [d|e]; [left; eauto|].
    destruct (J e eq_refl) as [-> | ->]; auto.
Qed.
Print Assumptions C90_damaged.

(** A _version.py of a source tree that has lost the line of git_refnames, but not
    those of git_full or git_date, stops setup.py with a KeyError. *)
Theorem C90_lost_keyword : forall pre post name value g,
  Forall (fun l => ~ In newline l /\ other_line l) (pre ++ post) -> ~ In newline value ->
  In name [T "git_full"; T "git_date"] ->
  setup_get_versions (join [newline] (pre ++ keyword_line name value :: post)) g = VRaise VKeyError.
Proof.
  intros pre post name value g Hl Hv Hn.
  assert (Hn' : In name keyword_names) by (unfold keyword_names; cbn [In] in *; tauto).
  apply Forall_app in Hl. destruct Hl as [H1 H2].
  assert (G : forall name', In name' keyword_names ->
     keyword_lines name' (pre ++ keyword_line name value :: post) = keyword_step name' (keyword_line name value) None).
  { intros name' Hx. unfold keyword_lines. rewrite fold_left_app.
    rewrite (keyword_other name' pre Hx); [|eapply Forall_impl; [|exact H1]; now intros l [_ Ho]]. cbn [fold_left].
    rewrite (keyword_other name' post Hx); [reflexivity|eapply Forall_impl; [|exact H2]; now intros l [_ Ho]]. }
  unfold setup_get_versions, git_get_keywords. rewrite split_join_lines.
  2:{ destruct pre; discriminate. }
  2:{ apply Forall_app; split; [eapply Forall_impl; [|exact H1]; now intros l [Hx _]|].
      constructor; [now apply keyword_line_newline|]. eapply Forall_impl; [|exact H2]. now intros l [Hx _]. }
  rewrite !G by (unfold keyword_names; cbn [In]; tauto).
  cbn [In] in Hn. destruct Hn as [<-|[<-|[]]].
  - rewrite step_same by (unfold keyword_names; cbn [In]; tauto).
    rewrite !step_other by (discriminate || (unfold keyword_names; cbn [In]; tauto)). reflexivity.
  - rewrite step_same by (unfold keyword_names; cbn [In]; tauto).
    rewrite !step_other by (discriminate || (unfold keyword_names; cbn [In]; tauto)). reflexivity.
Qed.
Print Assumptions C90_lost_keyword.

Example C90_case :
  let v := Versions (T "1.0") (Some (T "abc1234")) (Some false) None (Some (T "2020-11-16T10:00:00+0200")) in
  let file := version_file (dict_of v) in
  let g := Git (Some (T ".git")) (Some (describe_output (T "v7.5") 0 (T "abc1234") false)) (Some (T "abc1234def"))
               None (Some (T "2020-11-16 10:00:00 +0200")) in
  let version k := vbind (setup_get_versions (firstn k file) g) version_of in
  Forall inside (texts (dict_of v))
  /\ (needed (dict_of v) < length file)%nat
  /\ version (needed (dict_of v)) = VOk (JText (T "1.0"))
  /\ version (needed (dict_of v) - 1)%nat = VOk (JText (T "7.5"))
  /\ Forall other_line (split_on newline (template_open ++ newline :: T "{" ++ template_close))
  /\ setup_get_versions (template_open ++ newline :: T "{" ++ template_close) g = VRaise VValueError
  /\ Forall (fun l => ~ In newline l /\ other_line l) [T "def get_keywords():"].
Proof.
  cbn zeta. split.
  { assert (G : forall t, ~ In "'"%char t -> inside t).
    { intros t H x y E. apply H. rewrite E. apply in_or_app. right. now left. }
    apply Forall_forall. intros t Ht. apply G.
    assert (B : forallb (fun t => negb (has_char "'" t)) (texts (dict_of (Versions (T "1.0") (Some (T "abc1234")) (Some false)
                  None (Some (T "2020-11-16T10:00:00+0200"))))) = true) by (vm_compute; reflexivity).
    rewrite forallb_forall in B. specialize (B t Ht). apply negb_true_iff in B. now apply has_char_false. }
  split; [vm_compute; repeat constructor|]. split; [vm_compute; reflexivity|]. split; [vm_compute; reflexivity|].
  split; [repeat constructor; intros name [<-|[<-|[<-|[]]]]; reflexivity|]. split; [vm_compute; reflexivity|].
  repeat constructor.
  - cbn. intros H. repeat (destruct H as [H|H]; [discriminate H|]). exact H.
  - intros name [<-|[<-|[<-|[]]]]; reflexivity.
Qed.

(** C63-C69: the version of the package (gcs.__version__, gcs/_version.py). *)
From Coq Require Import String Ascii ZArith NArith Bool Lia List Permutation.
From Coq Require Import DecimalString DecimalN Sorting.Sorted.
From Verif Require Import Version VersionFacts.
Import ListNotations.
Open Scope list_scope.

(** * Specification *)

(** What git describe --tags --dirty --always --long prints: the tag, the number
    of commits since, the abbreviated commit, and whether the tree is modified. *)
Definition dirty_suffix (dirty : bool) : text := if dirty then T "-dirty" else [].
Definition describe_output (tag : text) (n : N) (hex : text) (dirty : bool) : text :=
  tag ++ T "-" ++ nat_text n ++ T "-g" ++ hex ++ dirty_suffix dirty.

(** Tag names: not empty, no newline, no leading white space. *)
Definition tag_name (t : text) : Prop :=
  ~ In newline t /\ match t with [] => False | c :: _ => is_space c = false end.
(** Abbreviated commits. *)
Definition hex_name (h : text) : Prop := h <> [] /\ Forall (fun c => is_hex c = true) h.
Definition blank (b : text) : Prop := Forall (fun c => is_bspace c = true) b.
Definition word (w : text) : Prop := w <> [] /\ Forall (fun c => is_space c = false) w.

(** * Lemmas *)
Lemma hex_not_space c : is_hex c = true -> is_space c = false.
Proof.
  unfold is_hex, is_digit, is_space. rewrite !orb_true_iff, !andb_true_iff, !Nat.leb_le.
  intros H. rewrite !orb_false_iff, !andb_false_iff, !Nat.leb_gt, !Nat.eqb_neq. lia.
Qed.

Lemma rev_nil_iff {A} (l : list A) : rev l = [] -> l = [].
Proof. intros E. rewrite <- (rev_involutive l), E. reflexivity. Qed.

Lemma unpadded_weaken (f g : ascii -> bool) s : (forall c, f c = true -> g c = true) ->
  unpadded g s -> unpadded f s.
Proof.
  intros H [H1 H2]. assert (G : forall c, g c = false -> f c = false).
  { intros c Hc. destruct (f c) eqn:E; [apply H in E; congruence|reflexivity]. }
  split; [destruct s|destruct (rev s)]; auto.
Qed.

Lemma unpadded_word w : word w -> unpadded is_space w.
Proof.
  intros [_ H]. split.
  - destruct w; [exact I|]. now inversion H.
  - apply Forall_rev in H. destruct (rev w); [exact I|]. now inversion H.
Qed.

Lemma blank_space b : blank b -> Forall (fun c => is_space c = true) b.
Proof. intros H. eapply Forall_impl; [|exact H]. apply space_bspace. Qed.

(** A line of output loses its trailing newline. *)
Lemma run_line s b : unpadded is_space s -> blank b -> strip (bstrip (s ++ b)) = s.
Proof.
  intros Hs Hb. assert (E : bstrip (s ++ b) = s).
  { apply (strip_by_pad is_bspace [] s b); [constructor|exact Hb|].
    apply (unpadded_weaken _ is_space); [apply space_bspace|exact Hs]. }
  rewrite E. now apply strip_by_id.
Qed.

Lemma describe_unpadded tag n hex dirty : tag_name tag -> hex_name hex ->
  unpadded is_space (describe_output tag n hex dirty).
Proof.
  intros [_ Ht] [Hne Hh]. split.
  - destruct tag; [contradiction|exact Ht].
  - unfold describe_output. rewrite !rev_app_distr. destruct dirty; cbn [dirty_suffix]; [reflexivity|]. cbn [rev app].
    apply Forall_rev in Hh. destruct (rev hex) as [|c r] eqn:E; [now apply rev_nil_iff in E|].
    cbn [app]. apply hex_not_space. now inversion Hh.
Qed.

Lemma describe_dirty tag n hex dirty : hex_name hex ->
  ends_with (T "-dirty") (describe_output tag n hex dirty) = dirty.
Proof.
  intros [Hne Hh]. unfold describe_output. destruct dirty; cbn [dirty_suffix].
  - rewrite !app_assoc. apply ends_with_app.
  - rewrite app_nil_r. destruct (ends_with _ _) eqn:E; [|reflexivity]. exfalso.
    destruct (exists_last Hne) as (hs & c & ->). rewrite !app_assoc in E.
    change (T "-dirty") with (T "-dirt" ++ ["y"%char]) in E. apply ends_with_last in E. subst c.
    apply Forall_app in Hh. destruct Hh as [_ Hh]. inversion Hh as [|? ? H _]. discriminate.
Qed.

(** The date git prints: date, time and zone. *)
Lemma replace1_word w c r s : ~ In c w -> replace1 c r (w ++ c :: s) = w ++ r ++ s.
Proof.
  induction w as [|x w IH]; cbn; intros H.
  - now rewrite Ascii.eqb_refl.
  - destruct (Ascii.eqb x c) eqn:E; [apply Ascii.eqb_eq in E; subst; tauto|]. rewrite IH by tauto. reflexivity.
Qed.

Lemma word_no_blank w : word w -> ~ In " "%char w.
Proof. intros [_ H] Hin. rewrite Forall_forall in H. now apply H in Hin. Qed.

Lemma word_ends w1 m w2 : word w1 -> word w2 -> unpadded is_space (w1 ++ m ++ w2).
Proof.
  intros [N1 H1] [N2 H2]. split.
  - destruct w1 as [|c w1]; [congruence|]. now inversion H1.
  - rewrite !rev_app_distr. apply Forall_rev in H2. destruct (rev w2) as [|c r] eqn:E; [now apply rev_nil_iff in E|].
    cbn. now inversion H2.
Qed.

Lemma iso_date_words a b c : word a -> word b -> word c ->
  iso_date (a ++ T " " ++ b ++ T " " ++ c) = a ++ T "T" ++ b ++ c.
Proof.
  intros Ha Hb Hc. unfold iso_date, strip. rewrite strip_by_id.
  2:{ replace (a ++ T " " ++ b ++ T " " ++ c) with (a ++ (T " " ++ b ++ T " ") ++ c) by now rewrite <- !app_assoc.
      now apply word_ends. }
  change (T " " ++ b ++ T " " ++ c) with (" "%char :: b ++ " "%char :: c).
  rewrite replace1_word by now apply word_no_blank.
  replace (a ++ T "T" ++ b ++ " "%char :: c) with ((a ++ T "T" ++ b) ++ " "%char :: c) by now rewrite <- !app_assoc.
  rewrite replace1_word; [now rewrite <- !app_assoc|].
  rewrite !in_app_iff. intros [H|[H|H]].
  - now apply word_no_blank in H.
  - cbn in H. destruct H as [H|[]]. discriminate.
  - now apply word_no_blank in H.
Qed.

Lemma words_unpadded a b c : word a -> word b -> word c -> unpadded is_space (a ++ T " " ++ b ++ T " " ++ c).
Proof.
  intros Ha Hb Hc. replace (a ++ T " " ++ b ++ T " " ++ c) with (a ++ (T " " ++ b ++ T " ") ++ c) by now rewrite <- !app_assoc.
  now apply word_ends.
Qed.

(** * C63 *)

Theorem C63_tagged : forall prefix tag n hex dirty head count day time zone gdir b1 b2 b3 b4,
  tag_name (prefix ++ tag) -> hex_name hex -> word head -> word day -> word time -> word zone ->
  blank b1 -> blank b2 -> blank b4 ->
  git_pieces_from_vcs prefix
    (Git (Some gdir) (Some (describe_output (prefix ++ tag) n hex dirty ++ b1)) (Some (head ++ b2))
         (option_map (fun c => c ++ b3) count) (Some ((day ++ T " " ++ time ++ T " " ++ zone) ++ b4)))
  = VOk (Parsed (Pieces (Some tag) (Z.of_N n) hex head dirty (Some (day ++ T "T" ++ time ++ zone)))).
Proof.
  intros prefix tag n hex dirty head count day time zone gdir b1 b2 b3 b4 Ht Hh Hhead Hd Hti Hz B1 B2 B4.
  unfold git_pieces_from_vcs. cbn [g_dir g_describe g_head g_count g_show run option_map].
  rewrite run_line; [|now apply describe_unpadded|exact B1].
  rewrite describe_dirty by exact Hh.
  assert (E : (if dirty
     then match rindex (T "-dirty") (describe_output (prefix ++ tag) n hex dirty) with
          | Some k => VOk (firstn k (describe_output (prefix ++ tag) n hex dirty))
          | None => VRaise VValueError end
     else VOk (describe_output (prefix ++ tag) n hex dirty)) = VOk (describe_output (prefix ++ tag) n hex false)).
  { destruct dirty; [|reflexivity].
    replace (describe_output (prefix ++ tag) n hex true) with (describe_output (prefix ++ tag) n hex false ++ T "-dirty").
    2:{ unfold describe_output. rewrite <- !app_assoc. reflexivity. }
    rewrite rindex_suffix by discriminate. now rewrite firstn_app_len. }
  rewrite E. cbn [vbind].
  assert (Hdash : has_char "-" (describe_output (prefix ++ tag) n hex false) = true).
  { apply has_char_iff. unfold describe_output. rewrite !in_app_iff. right; left. now left. }
  rewrite Hdash. unfold describe_output.
  rewrite match_describe_complete; [|split; [|split; [|split; [|split; [|exact Hh]]]]|now left].
  2:{ destruct Ht as [_ Ht]. intros En. now rewrite En in Ht. }
  2:{ apply Ht. }
  2:{ apply nat_text_nonempty. }
  2:{ apply nat_text_digits. }
  rewrite starts_with_app, nat_text_read, skipn_app_len.
  rewrite run_line; [|now apply unpadded_word|exact B2].
  rewrite run_line; [|now apply words_unpadded|exact B4].
  rewrite iso_date_words by assumption. reflexivity.
Qed.

Lemma no_dash_hex h : Forall (fun c => is_hex c = true) h -> ~ In "-"%char h.
Proof. intros H Hin. rewrite Forall_forall in H. now apply H in Hin. Qed.

(** No tag reachable: describe prints the abbreviated commit only. *)
Theorem C63_untagged : forall prefix n hex dirty head day time zone gdir b1 b2 b3 b4,
  hex_name hex -> word head -> word day -> word time -> word zone ->
  blank b1 -> blank b2 -> blank b3 -> blank b4 ->
  git_pieces_from_vcs prefix
    (Git (Some gdir) (Some ((hex ++ dirty_suffix dirty) ++ b1)) (Some (head ++ b2))
         (Some (nat_text n ++ b3)) (Some ((day ++ T " " ++ time ++ T " " ++ zone) ++ b4)))
  = VOk (Parsed (Pieces None (Z.of_N n) (firstn 7 head) head dirty (Some (day ++ T "T" ++ time ++ zone)))).
Proof.
  intros prefix n hex dirty head day time zone gdir b1 b2 b3 b4 Hh Hhead Hd Hti Hz B1 B2 B3 B4.
  pose proof Hh as [Hne Hx].
  unfold git_pieces_from_vcs. cbn [g_dir g_describe g_head g_count g_show run option_map].
  assert (Hw : word hex).
  { split; [exact Hne|]. eapply Forall_impl; [|exact Hx]. apply hex_not_space. }
  rewrite run_line; [| |exact B1].
  2:{ split.
      - destruct hex; [congruence|]. cbn. apply hex_not_space. now inversion Hx.
      - destruct dirty; cbn [dirty_suffix]; [now rewrite rev_app_distr|]. rewrite app_nil_r. apply unpadded_word, Hw. }
  assert (Ed : ends_with (T "-dirty") (hex ++ dirty_suffix dirty) = dirty).
  { destruct dirty; cbn [dirty_suffix]; [apply ends_with_app|]. rewrite app_nil_r. destruct (ends_with _ _) eqn:E; [|reflexivity].
    exfalso. apply ends_with_iff in E. destruct E as [r ->]. apply (no_dash_hex _ Hx). rewrite in_app_iff. right. now left. }
  rewrite Ed.
  assert (E : (if dirty
     then match rindex (T "-dirty") (hex ++ dirty_suffix dirty) with
          | Some k => @VOk text (firstn k (hex ++ dirty_suffix dirty))
          | None => VRaise VValueError end
     else VOk (hex ++ dirty_suffix dirty)) = @VOk text hex).
  { destruct dirty; cbn [dirty_suffix]; [|now rewrite app_nil_r]. rewrite rindex_suffix by discriminate. now rewrite firstn_app_len. }
  match goal with |- vbind ?X _ = _ => replace X with (@VOk text hex) by (symmetry; exact E) end. cbn [vbind].
  replace (has_char "-" hex) with false by (symmetry; apply has_char_false; now apply no_dash_hex).
  assert (Hc : word (nat_text n)).
  { split; [apply nat_text_nonempty|]. eapply Forall_impl; [|apply nat_text_digits]. intros c Hc0. apply hex_not_space.
    now apply digit_hex. }
  assert (Ei : int_of_text (bstrip (nat_text n ++ b3)) = VOk (Z.of_N n)).
  { unfold int_of_text. rewrite run_line; [|now apply unpadded_word|exact B3].
    pose proof (nat_text_digits n) as Hdg. destruct (nat_text n) as [|c r] eqn:En; [now apply nat_text_nonempty in En|].
    replace (Ascii.eqb c "-") with false.
    2:{ symmetry. apply Ascii.eqb_neq. intros ->. inversion Hdg; discriminate. }
    replace (Ascii.eqb c "+") with false.
    2:{ symmetry. apply Ascii.eqb_neq. intros ->. inversion Hdg; discriminate. }
    rewrite <- En, nat_text_read. f_equal. lia. }
  rewrite Ei. cbn [vbind].
  rewrite run_line; [|now apply unpadded_word|exact B2].
  rewrite run_line; [|now apply words_unpadded|exact B4].
  rewrite iso_date_words by assumption. reflexivity.
Qed.

(** Conversely, a tag is only reported if git printed it. *)
Theorem C63_sound : forall prefix g p tag,
  git_pieces_from_vcs prefix g = VOk (Parsed p) -> p_tag p = Some tag ->
  exists out num n tail,
    g_describe g = Some out
    /\ strip (bstrip out) = (prefix ++ tag) ++ T "-" ++ num ++ T "-g" ++ p_short p ++ tail
                            ++ dirty_suffix (p_dirty p)
    /\ (tail = [] \/ tail = [newline])
    /\ describes (prefix ++ tag) num (p_short p)
    /\ nat_of_text num = Some n /\ p_distance p = Z.of_N n.
Proof.
  intros prefix g p tag. unfold git_pieces_from_vcs, run.
  destruct (g_dir g) as [gd|]; [|discriminate]. destruct (g_describe g) as [out|]; [|discriminate].
  destruct (g_head g) as [hd|]; [|discriminate]. cbn [option_map].
  set (d := strip (bstrip out)).
  assert (Hgd : forall X (k : text -> vres X) r,
    vbind (if ends_with (T "-dirty") d
           then match rindex (T "-dirty") d with Some k0 => VOk (firstn k0 d) | None => VRaise VValueError end
           else VOk d) k = VOk r ->
    exists s, d = s ++ dirty_suffix (ends_with (T "-dirty") d) /\ k s = VOk r).
  { intros X k r. destruct (ends_with (T "-dirty") d) eqn:E; cbn [vbind].
    - apply ends_with_iff in E. destruct E as [s Es].
      assert (Er : rindex (T "-dirty") d = Some (length s)) by (rewrite Es; now apply rindex_suffix).
      assert (Ef : firstn (length s) d = s) by (rewrite Es; apply firstn_app_len).
      rewrite Er, Ef. cbn [vbind]. eauto.
    - intros H. exists d. cbn. now rewrite app_nil_r. }
  intros H Htag. apply Hgd in H. clear Hgd. destruct H as (s & Es & H).
  destruct (has_char "-" s).
  - destruct (match_describe s) as [[[t num] hex]|] eqn:Em; [|discriminate].
    destruct (starts_with prefix t) eqn:Ep; [|discriminate].
    destruct (nat_of_text num) as [n|] eqn:En; [|discriminate].
    destruct (g_show g) as [sh|]; [|discriminate]. cbn in H. injection H as <-. cbn in *. injection Htag as <-.
    apply starts_with_iff in Ep. destruct Ep as [r ->]. rewrite skipn_app_len.
    apply match_describe_sound in Em. destruct Em as [Hds (tail & Ht & Em)].
    exists out, num, n, tail. split; [reflexivity|]. split.
    { fold d. rewrite Es at 1. rewrite Em. now rewrite <- !app_assoc. }
    auto.
  - destruct (g_count g) as [c|]; [|discriminate]. cbn in H. destruct (int_of_text (bstrip c)) as [z|]; [|discriminate].
    cbn in H. destruct (g_show g) as [sh|]; [|discriminate]. cbn in H. injection H as <-. discriminate.
Qed.
Print Assumptions C63_tagged.
Print Assumptions C63_untagged.
Print Assumptions C63_sound.

(** A tag with hyphens that looks like describe output itself. *)
Example C63_case :
  tag_name (T "v" ++ T "1.0-rc-3-gabc")
  /\ git_pieces_from_vcs (T "v")
       (Git (Some (T ".git")) (Some (T "v1.0-rc-3-gabc-12-g0123abc-dirty")) (Some (T "0123abcdef")) None
            (Some (T "2020-01-02 10:11:12 +0200")))
     = VOk (Parsed (Pieces (Some (T "1.0-rc-3-gabc")) 12 (T "0123abc") (T "0123abcdef") true
                           (Some (T "2020-01-02T10:11:12+0200")))).
Proof.
  split; [split; [cbn; intuition discriminate|reflexivity]|]. vm_compute. reflexivity.
Qed.

(** * C64 *)

(** The keywords of a source tree that is not a git archive: _version.py:26-29. *)
Definition repo_keywords : keywords :=
  Keywords (Some (T "$Format:%d$")) (Some (T "$Format:%H$")) (Some (T "$Format:%ci$")).

Definition contains_plus (t : text) : bool := existsb (Ascii.eqb "+") t.

(** TAG for a clean checkout of a tag, TAG+DISTANCE.gHEX[.dirty] otherwise. *)
Definition checkout_version (tag : text) (n : N) (hex : text) (dirty : bool) : text :=
  if (n =? 0)%N && negb dirty then tag
  else tag ++ (if contains_plus tag then T "." else T "+") ++ nat_text n ++ T ".g" ++ hex
           ++ (if dirty then T ".dirty" else []).

Lemma int_text_of_N n : int_text (Z.of_N n) = nat_text n.
Proof. rewrite int_text_nonneg by lia. now rewrite N2Z.id. Qed.

Theorem C64_checkout : forall file tag n hex dirty head count day time zone gdir b1 b2 b3 b4,
  tag <> [] -> ~ In newline tag -> hex_name hex -> word head -> word day -> word time -> word zone ->
  blank b1 -> blank b2 -> blank b4 ->
  get_versions repo_keywords (Some file)
    (Git (Some gdir) (Some (describe_output (T "v" ++ tag) n hex dirty ++ b1)) (Some (head ++ b2))
         (option_map (fun c => c ++ b3) count) (Some ((day ++ T " " ++ time ++ T " " ++ zone) ++ b4)))
  = VOk (Versions (checkout_version tag n hex dirty) (Some head) (Some dirty) None
                  (Some (day ++ T "T" ++ time ++ zone))).
Proof.
  intros file tag n hex dirty head count day time zone gdir b1 b2 b3 b4 Ht Hnl Hh Hhead Hd Hti Hz B1 B2 B4.
  unfold get_versions, get_versions_with. cbn [otherwise].
  replace (git_versions_from_keywords repo_keywords cfg_tag_prefix) with (@VRaise versions NotThisMethod)
    by (vm_compute; reflexivity).
  cbn [otherwise]. unfold cfg_tag_prefix.
  rewrite (C63_tagged (T "v") tag n hex dirty head count day time zone gdir b1 b2 b3 b4); auto.
  2:{ split; [|reflexivity]. cbn. intros [E|E]; [discriminate|contradiction]. }
  cbn [vbind render]. unfold render_style, cfg_style. cbn [otherwise p_long p_dirty p_date].
  change (text_eqb (T "pep440") (T "")) with false. change (text_eqb (T "pep440") (T "default")) with false.
  change (text_eqb (T "pep440") (T "pep440")) with true. cbn [orb vbind otherwise].
  do 2 f_equal. unfold render_pep440, tagged, checkout_version, away. cbn [p_tag p_distance p_dirty p_short].
  destruct tag as [|c tag]; [congruence|]. rewrite int_text_of_N.
  replace (Z.of_N n =? 0)%Z with (n =? 0)%N by (destruct (N.eqb_spec n 0); lia).
  destruct (n =? 0)%N, dirty; reflexivity.
Qed.

Theorem C64_untagged : forall file n hex dirty head day time zone gdir b1 b2 b3 b4,
  hex_name hex -> word head -> word day -> word time -> word zone ->
  blank b1 -> blank b2 -> blank b3 -> blank b4 ->
  get_versions repo_keywords (Some file)
    (Git (Some gdir) (Some ((hex ++ dirty_suffix dirty) ++ b1)) (Some (head ++ b2))
         (Some (nat_text n ++ b3)) (Some ((day ++ T " " ++ time ++ T " " ++ zone) ++ b4)))
  = VOk (Versions (T "0+untagged." ++ nat_text n ++ T ".g" ++ firstn 7 head ++ (if dirty then T ".dirty" else []))
                  (Some head) (Some dirty) None (Some (day ++ T "T" ++ time ++ zone))).
Proof.
  intros file n hex dirty head day time zone gdir b1 b2 b3 b4 Hh Hhead Hd Hti Hz B1 B2 B3 B4.
  unfold get_versions, get_versions_with.
  replace (git_versions_from_keywords repo_keywords cfg_tag_prefix) with (@VRaise versions NotThisMethod)
    by (vm_compute; reflexivity).
  cbn [otherwise]. unfold cfg_tag_prefix.
  rewrite (C63_untagged (T "v") n hex dirty head day time zone gdir b1 b2 b3 b4); auto.
  cbn [vbind render]. unfold render_style, cfg_style. cbn [otherwise p_long p_dirty p_date].
  change (text_eqb (T "pep440") (T "")) with false. change (text_eqb (T "pep440") (T "default")) with false.
  change (text_eqb (T "pep440") (T "pep440")) with true. cbn [orb vbind otherwise].
  do 2 f_equal. unfold render_pep440, tagged. cbn [p_tag p_distance p_dirty p_short].
  rewrite int_text_of_N. destruct dirty; reflexivity.
Qed.

(** The style git-describe-long gives back what git printed, without the prefix. *)
Theorem C64_describe_round_trip : forall tag n hex long dirty date,
  tag <> [] ->
  render_style (Pieces (Some tag) (Z.of_N n) hex long dirty date) (T "git-describe-long")
  = VOk (describe_output tag n hex dirty).
Proof.
  intros tag n hex long dirty date Ht. unfold render_style. cbn [text_eqb T list_ascii_of_string Ascii.eqb Bool.eqb andb orb].
  unfold render_git_describe_long, tagged, describe_output. cbn [p_tag p_distance p_dirty p_short].
  destruct tag; [congruence|]. rewrite int_text_of_N. f_equal. rewrite <- !app_assoc. reflexivity.
Qed.
Print Assumptions C64_checkout.
Print Assumptions C64_untagged.
Print Assumptions C64_describe_round_trip.

Example C64_case :
  (match get_versions repo_keywords (Some (T "/x/gcs/gcs/_version.py"))
     (Git (Some (T ".git")) (Some (T "v0.1-3-g0123abc-dirty")) (Some (T "0123abcdef")) None (Some (T "2020-01-02 10:11:12 +0200")))
   with VOk v => v_version v | _ => [] end) = T "0.1+3.g0123abc.dirty"
  /\ checkout_version (T "0.1") 3 (T "0123abc") true = T "0.1+3.g0123abc.dirty".
Proof. split; vm_compute; reflexivity. Qed.

(** * C65 *)

(** Pieces of a tree whose tag, if any, has no local version part. *)
Definition plain (p : pieces) : Prop :=
  (0 <= p_distance p)%Z /\ Forall (fun c => is_hex c = true) (p_short p)
  /\ match p_tag p with None => True | Some t => t <> [] /\ ~ In "+"%char t end.

Definition local_part (p : pieces) : text :=
  nat_text (Z.to_N (p_distance p)) ++ T ".g" ++ p_short p ++ when (p_dirty p) ".dirty".

Lemma digits_no_dot s : Forall (fun c => is_digit c = true) s -> ~ In "."%char s.
Proof. intros H Hin. rewrite Forall_forall in H. now apply H in Hin. Qed.
Lemma hex_no_dot s : Forall (fun c => is_hex c = true) s -> ~ In "."%char s.
Proof. intros H Hin. rewrite Forall_forall in H. now apply H in Hin. Qed.

Lemma local_part_inj p q : plain p -> plain q -> local_part p = local_part q ->
  p_distance p = p_distance q /\ p_short p = p_short q /\ p_dirty p = p_dirty q.
Proof.
  intros (Dp & Hp & _) (Dq & Hq & _) E. unfold local_part in E.
  change (T ".g" ++ p_short p ++ when (p_dirty p) ".dirty")
    with ("."%char :: ("g"%char :: p_short p ++ when (p_dirty p) ".dirty")) in E.
  change (T ".g" ++ p_short q ++ when (p_dirty q) ".dirty")
    with ("."%char :: ("g"%char :: p_short q ++ when (p_dirty q) ".dirty")) in E.
  apply split_char in E; try (apply digits_no_dot, nat_text_digits). destruct E as [E1 E2].
  apply nat_text_inj in E1. split; [lia|]. injection E2 as E2.
  assert (G : forall a b : text, Forall (fun c => is_hex c = true) b -> a ++ T ".dirty" <> b).
  { intros a b Hb Eb. apply (hex_no_dot b Hb). rewrite <- Eb, in_app_iff. right. now left. }
  destruct (p_dirty p), (p_dirty q); cbn [when] in E2.
  - apply app_inv_tail in E2. auto.
  - rewrite app_nil_r in E2. now apply G in E2.
  - rewrite app_nil_r in E2. symmetry in E2. now apply G in E2.
  - rewrite !app_nil_r in E2. auto.
Qed.

Lemma render_pep440_plain p : plain p ->
  match p_tag p with
  | Some t => ~ In "+"%char t /\ render_pep440 p = if away p then t ++ "+"%char :: local_part p else t
  | None => render_pep440 p = T "0" ++ "+"%char :: (T "untagged." ++ local_part p)
  end.
Proof.
  intros (Hd & Hs & Ht). unfold render_pep440, tagged, local_part. rewrite int_text_nonneg by exact Hd.
  destruct (p_tag p) as [[|c t]|]; [now destruct Ht| |reflexivity].
  destruct Ht as [_ Hp]. split; [exact Hp|]. destruct (away p); [|reflexivity].
  unfold plus_or_dot. replace (has_char "+" (c :: t)) with false by (symmetry; now apply has_char_false).
  reflexivity.
Qed.

Theorem C65_version_identifies : forall p q, plain p -> plain q ->
  render_pep440 p = render_pep440 q ->
  p_tag p = p_tag q /\ p_distance p = p_distance q /\ p_dirty p = p_dirty q
  /\ (p_tag p = None \/ p_distance p <> 0%Z \/ p_dirty p = true -> p_short p = p_short q).
Proof.
  intros p q Hp Hq E. pose proof (render_pep440_plain p Hp) as Rp. pose proof (render_pep440_plain q Hq) as Rq.
  assert (U : forall r s, T "untagged." ++ local_part r <> local_part s).
  { intros r s Eu. unfold local_part in Eu. pose proof (nat_text_digits (Z.to_N (p_distance s))) as Hd.
    pose proof (nat_text_nonempty (Z.to_N (p_distance s))) as Hn.
    destruct (nat_text (Z.to_N (p_distance s))) as [|c w]; [congruence|]. inversion Hd; subst.
    cbn in Eu. injection Eu as <-. discriminate. }
  assert (Z0 : ~ In "+"%char (T "0")) by (cbn; intuition discriminate).
  assert (A : forall r, away r = false -> p_distance r = 0%Z /\ p_dirty r = false).
  { intros r Hr. unfold away in Hr. apply orb_false_iff in Hr. destruct Hr as [H1 H2]. split; [lia|exact H2]. }
  destruct (p_tag p) as [t|], (p_tag q) as [t'|].
  - destruct Rp as [Np Rp], Rq as [Nq Rq]. rewrite Rp, Rq in E. clear Rp Rq.
    destruct (away p) eqn:Ap, (away q) eqn:Aq.
    + apply split_char in E; auto. destruct E as [-> E]. apply local_part_inj in E; auto.
      destruct E as (E1 & E2 & E3). auto.
    + exfalso. apply Nq. rewrite <- E, in_app_iff. right. now left.
    + exfalso. apply Np. rewrite E, in_app_iff. right. now left.
    + subst t'. apply A in Ap, Aq. destruct Ap as [P1 P2], Aq as [Q1 Q2]. split; [reflexivity|].
      split; [congruence|]. split; [congruence|]. intros [H|[H|H]]; congruence.
  - destruct Rp as [Np Rp]. rewrite Rp, Rq in E. exfalso. destruct (away p).
    + apply split_char in E; auto. destruct E as [_ E]. symmetry in E. now apply U in E.
    + apply Np. rewrite E, in_app_iff. right. now left.
  - destruct Rq as [Nq Rq]. rewrite Rp, Rq in E. exfalso. destruct (away q).
    + apply split_char in E; auto. destruct E as [_ E]. now apply U in E.
    + apply Nq. rewrite <- E, in_app_iff. right. now left.
  - rewrite Rp, Rq in E. apply split_char in E; auto. destruct E as [_ E]. apply app_inv_head in E.
    apply local_part_inj in E; auto. destruct E as (E1 & E2 & E3). auto.
Qed.
Print Assumptions C65_version_identifies.

Example C65_case : plain (Pieces (Some (T "1.0-rc")) 3 (T "abc") (T "abcdef") true None)
  /\ render_pep440 (Pieces (Some (T "1.0-rc")) 3 (T "abc") (T "abcdef") true None) = T "1.0-rc+3.gabc.dirty".
Proof.
  split; [|reflexivity]. split; [cbn; lia|]. split; [repeat constructor|]. split; [discriminate|].
  cbn. intuition discriminate.
Qed.

(** * C66 *)

(** PEP 440 local version identifiers: letters and digits, separated by dots. *)
Definition is_alnum (c : ascii) : bool :=
  let n := nat_of_ascii c in is_digit c || ((97 <=? n)%nat && (n <=? 122)%nat).
Definition segment (s : text) : Prop := s <> [] /\ Forall (fun c => is_alnum c = true) s.
Definition local_label (s : text) : Prop :=
  exists segs, segs <> [] /\ Forall segment segs /\ s = join (T ".") segs.

Lemma hex_alnum c : is_hex c = true -> is_alnum c = true.
Proof.
  unfold is_hex, is_alnum. rewrite !orb_true_iff, !andb_true_iff, !Nat.leb_le. intros [H|H]; [now left|right; lia].
Qed.
Lemma segment_nat n : segment (nat_text n).
Proof.
  split; [apply nat_text_nonempty|]. eapply Forall_impl; [|apply nat_text_digits]. intros c H. apply hex_alnum.
  now apply digit_hex.
Qed.
Lemma segment_g h : Forall (fun c => is_hex c = true) h -> segment ("g"%char :: h).
Proof. intros H. split; [discriminate|]. constructor; [reflexivity|]. eapply Forall_impl; [|exact H]. apply hex_alnum. Qed.

Lemma join_app sep a b : a <> [] -> b <> [] -> join sep (a ++ b) = join sep a ++ sep ++ join sep b.
Proof.
  intros Ha Hb. induction a as [|x a IH]; [congruence|]. destruct a as [|y a].
  - cbn. destruct b; [congruence|reflexivity].
  - cbn [app] in *. change (join sep (x :: y :: a ++ b)) with (x ++ sep ++ join sep (y :: a ++ b)).
    rewrite IH by discriminate. change (join sep (x :: y :: a)) with (x ++ sep ++ join sep (y :: a)).
    now rewrite <- !app_assoc.
Qed.

Lemma local_label_app a b : local_label a -> local_label b -> local_label (a ++ T "." ++ b).
Proof.
  intros (s1 & N1 & H1 & ->) (s2 & N2 & H2 & ->). exists (s1 ++ s2). split; [destruct s1; [congruence|discriminate]|].
  split; [apply Forall_app; auto|]. now rewrite join_app.
Qed.

Lemma local_label_one s : segment s -> local_label s.
Proof. intros H. exists [s]. split; [discriminate|]. split; [auto|reflexivity]. Qed.

Lemma local_label_hex h (d : bool) : Forall (fun c => is_hex c = true) h ->
  local_label ("g"%char :: h ++ when d ".dirty").
Proof.
  intros H. destruct d; cbn [when].
  - apply (local_label_app ("g"%char :: h) (T "dirty")); apply local_label_one.
    + now apply segment_g.
    + split; [discriminate|repeat constructor].
  - rewrite app_nil_r. now apply local_label_one, segment_g.
Qed.

(** [v] is [public], or [public] with one local version identifier. *)
Definition pep440_form (public v : text) : Prop :=
  v = public \/ exists l, local_label l /\ v = public ++ T "+" ++ l.

Theorem C66_one_local_part : forall p public,
  (0 <= p_distance p)%Z -> Forall (fun c => is_hex c = true) (p_short p) ->
  ~ In "+"%char public -> public <> [] ->
  (p_tag p = None /\ public = T "0" \/ exists t, p_tag p = Some t /\ pep440_form public t) ->
  pep440_form public (render_pep440 p).
Proof.
  intros p public Hd Hs Hpub Hne Ht.
  assert (L : local_label (nat_text (Z.to_N (p_distance p)) ++ T ".g" ++ p_short p ++ when (p_dirty p) ".dirty")).
  { apply (local_label_app (nat_text (Z.to_N (p_distance p))) ("g"%char :: p_short p ++ when (p_dirty p) ".dirty")).
    - apply local_label_one, segment_nat.
    - now apply local_label_hex. }
  unfold render_pep440. rewrite int_text_nonneg by exact Hd. unfold tagged.
  destruct Ht as [[-> ->]|(t & -> & Ht)].
  - right. eexists. split; [|reflexivity].
    apply (local_label_app (T "untagged") _); [|exact L]. apply local_label_one.
    split; [discriminate|repeat constructor].
  - destruct t as [|c t].
    { exfalso. destruct Ht as [Ht|(l & _ & Ht)]; [congruence|]. destruct public; [congruence|discriminate]. }
    destruct (away p); [|exact Ht]. right. destruct Ht as [Ht|(l & Hl & Ht)]; rewrite Ht.
    + eexists. split; [exact L|]. unfold plus_or_dot.
      now replace (has_char "+" public) with false by (symmetry; now apply has_char_false).
    + exists (l ++ T "." ++ nat_text (Z.to_N (p_distance p)) ++ T ".g" ++ p_short p ++ when (p_dirty p) ".dirty").
      split; [now apply local_label_app|]. unfold plus_or_dot.
      replace (has_char "+" (public ++ T "+" ++ l)) with true.
      2:{ symmetry. apply has_char_iff. rewrite in_app_iff. right. now left. }
      now rewrite <- !app_assoc.
Qed.
Print Assumptions C66_one_local_part.

(** A tag that already has a local part. *)
Example C66_case :
  pep440_form (T "1.0") (T "1.0+fork.2")
  /\ render_pep440 (Pieces (Some (T "1.0+fork.2")) 3 (T "abc") (T "abcdef") false None) = T "1.0+fork.2.3.gabc".
Proof.
  split; [|reflexivity]. right. exists (T "fork.2"). split; [|reflexivity].
  apply (local_label_app (T "fork") (T "2")); apply local_label_one; split; try discriminate; repeat constructor.
Qed.

(** * C67 *)

(** A reference name as git log --decorate prints it. *)
Definition is_paren (c : ascii) : bool := Ascii.eqb c "(" || Ascii.eqb c ")".
Definition clean_ref (r : text) : Prop :=
  r <> [] /\ ~ In ","%char r /\ unpadded is_space r /\ unpadded is_paren r.

(** The expanded keyword: the references in parentheses. *)
Definition decoration (rs : list text) : text := T " (" ++ join (T ", ") rs ++ T ")".

(** The tags: marked as such or, if no reference is, the names with a digit. *)
Definition is_tag (rs : list text) (t : text) : Prop :=
  In (T "tag: " ++ t) rs
  \/ (forall w, ~ In (T "tag: " ++ w) rs) /\ In t rs /\ exists c, In c t /\ is_digit c = true.

Lemma ref_tags_In rs t : In t (ref_tags rs) <-> is_tag rs t.
Proof.
  unfold ref_tags, is_tag.
  assert (M : forall w, In w (map (skipn (length (T "tag: "))) (filter (starts_with (T "tag: ")) rs))
                        <-> In (T "tag: " ++ w) rs).
  { intros w. rewrite in_map_iff. split.
    - intros (x & <- & Hx). apply filter_In in Hx. destruct Hx as [Hx Hp]. apply starts_with_iff in Hp.
      destruct Hp as [r ->]. now rewrite skipn_app_len.
    - intros H. exists (T "tag: " ++ w). split; [apply skipn_app_len|]. apply filter_In. split; [exact H|].
      apply starts_with_app. }
  destruct (map _ _) as [|x l] eqn:E.
  - rewrite filter_In, existsb_exists. split.
    + intros [H1 H2]. right. split; [|auto]. intros w Hw. now apply M in Hw.
    + intros [H|(_ & H1 & H2)]; [now apply M in H|]. auto.
  - rewrite M. split; [now left|]. intros [H|[H _]]; [exact H|]. exfalso.
    apply (H x). apply M. now left.
Qed.

Lemma join_unpadded (f : ascii -> bool) sep rs : Forall (fun r => r <> [] /\ unpadded f r) rs -> unpadded f (join sep rs).
Proof.
  intros H. split.
  - destruct H as [|r rs [H1 [H2 _]] H3]; [exact I|]. destruct r as [|c r]; [congruence|]. now destruct rs.
  - induction H as [|r rs [H1 [_ H2]] H3 IH]; [exact I|]. destruct rs as [|r2 rs]; [exact H2|].
    change (join sep (r :: r2 :: rs)) with (r ++ sep ++ join sep (r2 :: rs)). rewrite !rev_app_distr.
    destruct (rev (join sep (r2 :: rs))) as [|c l] eqn:E; [|exact IH].
    exfalso. apply rev_nil_iff in E. inversion H3 as [|? ? [H4 _] _]; subst. destruct r2; [congruence|].
    now destruct rs.
Qed.

Lemma strip_decoration rs : strip (decoration rs) = T "(" ++ join (T ", ") rs ++ T ")".
Proof.
  transitivity (strip_by is_space ([" "%char] ++ (T "(" ++ join (T ", ") rs ++ T ")") ++ [])).
  - unfold strip. f_equal. now rewrite app_nil_r.
  - apply strip_by_pad; [repeat constructor|constructor|]. split; [reflexivity|].
    now rewrite !rev_app_distr.
Qed.

Lemma keywords_refs rs : rs <> [] -> Forall clean_ref rs ->
  map strip (split_on "," (strip_by (fun c => Ascii.eqb c "(" || Ascii.eqb c ")") (strip (decoration rs)))) = rs.
Proof.
  intros Hne H.
  rewrite strip_decoration.
  assert (E2 : strip_by (fun c => Ascii.eqb c "(" || Ascii.eqb c ")") (T "(" ++ join (T ", ") rs ++ T ")") = join (T ", ") rs).
  { apply (strip_by_pad is_paren (T "(") (join (T ", ") rs) (T ")")); [repeat constructor|repeat constructor|].
    apply join_unpadded. eapply Forall_impl; [|exact H]. intros r (R1 & R2 & R3 & R4). auto. }
  rewrite E2. apply split_join; [|exact Hne]. eapply Forall_impl; [|exact H]. intros r (R1 & R2 & R3 & R4). auto.
Qed.

Lemma keywords_eval rs prefix full date : rs <> [] -> Forall clean_ref rs -> word full ->
  git_versions_from_keywords (Keywords (Some (decoration rs)) (Some full) date) prefix
  = match first_with_prefix prefix (sorted_set (ref_tags rs)) with
    | Some r => VOk (Versions r (Some full) (Some false) None (option_map iso_date date))
    | None => VOk (Versions (T "0+unknown") (Some full) (Some false) (Some (T "no suitable tags")) None)
    end.
Proof.
  intros Hne H Hf. unfold git_versions_from_keywords. cbn [k_refnames k_full k_date key vbind].
  rewrite (keywords_refs rs Hne H).
  assert (E : starts_with (T "$Format") (strip (decoration rs)) = false).
  { rewrite strip_decoration. reflexivity. }
  rewrite E. replace (strip full) with full by (symmetry; now apply strip_by_id, unpadded_word).
  destruct (first_with_prefix _ _); reflexivity.
Qed.

(** The version is the first of the suitable tags in string order. *)
Theorem C67_least_tag : forall rs prefix full date v,
  rs <> [] -> Forall clean_ref rs -> word full ->
  is_tag rs (prefix ++ v) ->
  (forall w, is_tag rs (prefix ++ w) -> text_le (prefix ++ v) (prefix ++ w)) ->
  exists d, git_versions_from_keywords (Keywords (Some (decoration rs)) (Some full) date) prefix
            = VOk (Versions v (Some full) (Some false) None d).
Proof.
  intros rs prefix full date v Hne H Hf Hv Hmin. rewrite keywords_eval by assumption.
  destruct (first_with_prefix prefix (sorted_set (ref_tags rs))) as [r|] eqn:E.
  - pose proof (first_with_prefix_some _ _ _ (sorted_set_sorted _) E) as [H1 H2].
    apply sorted_set_In, ref_tags_In in H1.
    assert (prefix ++ v = prefix ++ r) as Ev.
    { apply text_leb_antisym.
      - apply text_leb_le. auto.
      - apply H2. apply sorted_set_In, ref_tags_In. exact Hv. }
    apply app_inv_head in Ev. subst r. eauto.
  - exfalso. apply (proj1 (first_with_prefix_none _ _) E v). apply sorted_set_In, ref_tags_In. exact Hv.
Qed.

(** Without a suitable tag the version is 0+unknown and an error is reported. *)
Theorem C67_no_tag : forall rs prefix full date,
  rs <> [] -> Forall clean_ref rs -> word full ->
  (forall v, ~ is_tag rs (prefix ++ v)) ->
  git_versions_from_keywords (Keywords (Some (decoration rs)) (Some full) date) prefix
  = VOk (Versions (T "0+unknown") (Some full) (Some false) (Some (T "no suitable tags")) None).
Proof.
  intros rs prefix full date Hne H Hf Hno. rewrite keywords_eval by assumption.
  replace (first_with_prefix prefix (sorted_set (ref_tags rs))) with (@None text); [reflexivity|].
  symmetry. apply first_with_prefix_none. intros v Hv. apply (Hno v). apply ref_tags_In, sorted_set_In. exact Hv.
Qed.

(** The order in which git lists the references, and repetitions, do not matter. *)
Theorem C67_order_irrelevant : forall rs rs' prefix full date,
  rs <> [] -> rs' <> [] -> Forall clean_ref rs -> Forall clean_ref rs' -> word full ->
  (forall r, In r rs <-> In r rs') ->
  git_versions_from_keywords (Keywords (Some (decoration rs)) (Some full) date) prefix
  = git_versions_from_keywords (Keywords (Some (decoration rs')) (Some full) date) prefix.
Proof.
  intros rs rs' prefix full date N1 N2 H1 H2 Hf Hin. rewrite !keywords_eval by assumption.
  assert (It : forall t, is_tag rs t <-> is_tag rs' t).
  { intros t. unfold is_tag. rewrite (Hin t), (Hin (T "tag: " ++ t)).
    split; (intros [H|(A & B & C)]; [now left|right]; split; [|auto]; intros w Hw; apply (A w); now apply Hin). }
  assert (G : forall r r', (forall t, is_tag r t <-> is_tag r' t) -> forall v,
     first_with_prefix prefix (sorted_set (ref_tags r)) = Some v ->
     first_with_prefix prefix (sorted_set (ref_tags r')) = Some v).
  { clear. intros r r' It v E. pose proof (first_with_prefix_some _ _ _ (sorted_set_sorted _) E) as [A1 A2].
    destruct (first_with_prefix prefix (sorted_set (ref_tags r'))) as [v'|] eqn:E'.
    - pose proof (first_with_prefix_some _ _ _ (sorted_set_sorted _) E') as [B1 B2]. f_equal.
      apply (app_inv_head prefix). apply text_leb_antisym.
      + apply B2. apply sorted_set_In, ref_tags_In, It, ref_tags_In, sorted_set_In. exact A1.
      + apply A2. apply sorted_set_In, ref_tags_In, It, ref_tags_In, sorted_set_In. exact B1.
    - exfalso. apply (proj1 (first_with_prefix_none _ _) E' v).
      apply sorted_set_In, ref_tags_In, It, ref_tags_In, sorted_set_In. exact A1. }
  destruct (first_with_prefix prefix (sorted_set (ref_tags rs))) as [v|] eqn:E.
  - now rewrite (G rs rs' It v E).
  - destruct (first_with_prefix prefix (sorted_set (ref_tags rs'))) as [v'|] eqn:E'; [|reflexivity].
    assert (It' : forall t, is_tag rs' t <-> is_tag rs t) by (intros t; symmetry; apply It).
    rewrite (G rs' rs It' v' E') in E. discriminate.
Qed.
Print Assumptions C67_least_tag.
Print Assumptions C67_no_tag.
Print Assumptions C67_order_irrelevant.

(** "sorting will prefer e.g. 2.0 over 2.0rc1" *)
Example C67_case :
  (match git_versions_from_keywords
     (Keywords (Some (decoration [T "HEAD -> master"; T "tag: v2.0rc1"; T "tag: v2.0"; T "tag: x1"])) (Some (T "abc")) None) (T "v")
   with VOk v => Some (v_version v) | _ => None end) = Some (T "2.0")
  /\ Forall clean_ref [T "HEAD -> master"; T "tag: v2.0rc1"; T "tag: v2.0"; T "tag: x1"]
  /\ is_tag [T "HEAD -> master"; T "tag: v2.0rc1"; T "tag: v2.0"; T "tag: x1"] (T "v" ++ T "2.0")
  /\ text_le (T "v" ++ T "2.0") (T "v" ++ T "2.0rc1").
Proof.
  split; [vm_compute; reflexivity|]. split; [|split].
  - repeat constructor; try discriminate; cbn; intuition discriminate.
  - left. right. right. now left.
  - left. now exists (T "rc1").
Qed.

(** * C68 *)

(** Computing the version raises if git show or git rev-list fails after the
    other commands succeeded; importing the package then fails. *)
Theorem C68_always_a_version_refuted : forall file,
  get_versions repo_keywords (Some file)
    (Git (Some (T ".git")) (Some (T "v0.1-0-gabc")) (Some (T "abcdef")) (Some (T "5")) None) = VRaise VAttributeError
  /\ get_versions repo_keywords (Some file)
    (Git (Some (T ".git")) (Some (T "abc")) (Some (T "abcdef")) None (Some (T "2020-01-01 10:11:12 +0200"))) = VRaise VTypeError.
Proof. intros file. split; reflexivity. Qed.

(** Otherwise there is always a version, and it is not empty. *)
Theorem C68_always_a_version_partial : forall file g,
  g_show g <> None ->
  (exists c n, g_count g = Some c /\ int_of_text (bstrip c) = VOk n) ->
  exists v, get_versions repo_keywords file g = VOk v /\ v_version v <> [].
Proof.
  intros file g Hs (c & n & Hc & Hn). unfold get_versions, get_versions_with.
  replace (git_versions_from_keywords repo_keywords cfg_tag_prefix) with (@VRaise versions NotThisMethod)
    by (vm_compute; reflexivity).
  cbn [otherwise]. destruct file as [file|]; [|eexists; split; [reflexivity|discriminate]].
  unfold cfg_parentdir_prefix. cbn [T list_ascii_of_string otherwise].
  assert (R : forall p, exists v, render p cfg_style = VOk v /\ v_version v <> []).
  { intros [p|long dirty error].
    - eexists. split; [reflexivity|]. cbn [v_version]. unfold render_pep440, tagged.
      destruct (p_tag p) as [[|x t]|]; try discriminate. destruct (away p); discriminate.
    - eexists. split; [reflexivity|discriminate]. }
  assert (D : git_pieces_from_vcs cfg_tag_prefix g = VRaise NotThisMethod
              \/ exists p, git_pieces_from_vcs cfg_tag_prefix g = VOk p).
  { unfold git_pieces_from_vcs, run. destruct (g_dir g) as [gd|]; [|now left].
    destruct (g_describe g) as [out|]; [|now left]. destruct (g_head g) as [hd|]; [|now left]. cbn [option_map].
    set (d := strip (bstrip out)). right.
    assert (Ed : exists s, (if ends_with (T "-dirty") d
           then match rindex (T "-dirty") d with Some k0 => VOk (firstn k0 d) | None => VRaise VValueError end
           else VOk d) = VOk s).
    { destruct (ends_with (T "-dirty") d) eqn:E; [|eauto]. apply ends_with_iff in E. destruct E as [s Es].
      rewrite Es. rewrite rindex_suffix by discriminate. eauto. }
    destruct Ed as [s Ed]. rewrite Ed. cbn [vbind].
    destruct (g_show g) as [sh|]; [|congruence]. cbn [option_map].
    destruct (has_char "-" s).
    - destruct (match_describe s) as [[[t num] hex]|] eqn:Em; [|eauto].
      destruct (starts_with cfg_tag_prefix t); [|eauto].
      apply match_describe_sound in Em. destruct Em as [(_ & _ & M1 & M2 & _) _].
      destruct (nat_of_text_digits num M1 M2) as [m ->]. eauto.
    - rewrite Hc. cbn [option_map]. rewrite Hn. cbn [vbind]. eauto. }
  destruct D as [-> |[p ->]]; cbn [vbind otherwise].
  - eexists. split; [reflexivity|discriminate].
  - destruct (R p) as (v & Ev & Hv). exists v. rewrite Ev. auto.
Qed.
Print Assumptions C68_always_a_version_refuted.
Print Assumptions C68_always_a_version_partial.

(** What git describe says without the mark for uncommitted changes. *)
Definition description (out d : text) : Prop :=
  let s := strip (bstrip out) in
  s = d ++ T "-dirty" \/ (s = d /\ forall t, s <> t ++ T "-dirty").

(** Exactly when computing the version raises: git describe and git rev-parse work
    and then git show fails although the description has been understood, or
    there is no tag and git rev-list gives no number. *)
Theorem C68_raises_exactly : forall file g,
  (exists x, get_versions repo_keywords file g = VRaise x)
  <-> file <> None /\ g_dir g <> None /\ g_head g <> None
      /\ exists out d, g_describe g = Some out /\ description out d
         /\ ((~ In "-"%char d /\ (g_show g = None \/ forall c n, g_count g = Some c -> int_of_text (bstrip c) <> VOk n))
             \/ (g_show g = None /\ exists tag num hex tail,
                   describes (T "v" ++ tag) num hex /\ (tail = [] \/ tail = [newline])
                   /\ d = (T "v" ++ tag) ++ T "-" ++ num ++ T "-g" ++ hex ++ tail)).
Proof.
  intros file g. unfold get_versions, get_versions_with.
  replace (git_versions_from_keywords repo_keywords cfg_tag_prefix) with (@VRaise versions NotThisMethod)
    by (vm_compute; reflexivity).
  cbn [otherwise]. destruct file as [file|]; [|split; [intros [x Hx]; discriminate|intros [H _]; congruence]].
  unfold cfg_parentdir_prefix. cbn [T list_ascii_of_string otherwise].
  assert (R : forall p, exists v, render p cfg_style = VOk v).
  { intros [p|long dirty error]; eexists; reflexivity. }
  assert (X : (exists x, otherwise (vbind (git_pieces_from_vcs cfg_tag_prefix g) (fun p => render p cfg_style))
                 (VOk (Versions (list_ascii_of_string "0+unknown") None None
                    (Some (list_ascii_of_string "unable to compute version")) None)) = VRaise x)
              <-> exists x, x <> NotThisMethod /\ git_pieces_from_vcs cfg_tag_prefix g = VRaise x).
  { destruct (git_pieces_from_vcs cfg_tag_prefix g) as [p|x]; cbn [vbind].
    - destruct (R p) as [v ->]. cbn [otherwise]. split; [intros [y Hy]; discriminate|intros (y & _ & Hy); discriminate].
    - assert (D : x = NotThisMethod \/ x <> NotThisMethod) by (destruct x; (now left) || (right; discriminate)).
      destruct D as [->|D].
      + split; [intros [y Hy]; discriminate|]. intros (y & Hne & Hy). congruence.
      + split; intros _; exists x; [now split|]. destruct x; try reflexivity. congruence. }
  rewrite X. clear X R. unfold git_pieces_from_vcs, run.
  destruct (g_dir g) as [gd|].
  2:{ split; [intros (x & Hx & E); cbn in E; congruence|intros (_ & H & _); congruence]. }
  destruct (g_describe g) as [out|].
  2:{ split; [intros (x & Hx & E); cbn in E; congruence|intros (_ & _ & _ & o & d & H & _); congruence]. }
  destruct (g_head g) as [hd|].
  2:{ split; [intros (x & Hx & E); cbn in E; congruence|intros (_ & _ & H & _); congruence]. }
  cbn [option_map]. set (s := strip (bstrip out)).
  assert (Ed : exists d, description out d /\ (forall d', description out d' -> d' = d)
        /\ (if ends_with (T "-dirty") s
         then match rindex (T "-dirty") s with Some k0 => VOk (firstn k0 s) | None => VRaise VValueError end
         else VOk s) = VOk d).
  { unfold description. fold s. destruct (ends_with (T "-dirty") s) eqn:E.
    - apply ends_with_iff in E. destruct E as [t Et]. exists t. split; [now left|]. split.
      + intros d' [H|[H1 H2]]; [|now contradiction (H2 t)]. rewrite Et in H. now apply app_inv_tail in H.
      + rewrite Et. rewrite rindex_suffix by discriminate. f_equal. apply firstn_app_len.
    - assert (N : forall t, s <> t ++ T "-dirty").
      { intros t Ht. assert (Y : ends_with (T "-dirty") s = true) by (apply ends_with_iff; now exists t). congruence. }
      exists s. split; [right; auto|]. split; [|reflexivity]. intros d' [H|[H1 H2]]; [now contradiction (N d')|auto]. }
  destruct Ed as (d & Hd & Hu & ->). cbn [vbind].
  assert (K : forall P : text -> Prop, (Some gd <> None /\ Some hd <> None /\ P d) <->
     (Some file <> None /\ Some gd <> None /\ Some hd <> None /\ exists out0 d0, Some out = Some out0 /\ description out0 d0 /\ P d0)).
  { intros P. split.
    - intros (H1 & H2 & H3). split; [discriminate|]. split; [discriminate|]. split; [discriminate|]. eauto.
    - intros (_ & _ & _ & o & d0 & Eo & Hd0 & HP). injection Eo as <-. rewrite (Hu d0 Hd0) in HP.
      split; [discriminate|]. split; [discriminate|exact HP]. }
  rewrite <- (K (fun d => (~ In "-"%char d /\ (g_show g = None \/ forall c n, g_count g = Some c -> int_of_text (bstrip c) <> VOk n))
             \/ (g_show g = None /\ exists tag num hex tail,
                   describes (T "v" ++ tag) num hex /\ (tail = [] \/ tail = [newline])
                   /\ d = (T "v" ++ tag) ++ T "-" ++ num ++ T "-g" ++ hex ++ tail))).
  assert (HC : has_char "-" d = true <-> In "-"%char d).
  { clear. induction d as [|c d IH]; cbn [has_char In]; [split; [discriminate|contradiction]|].
    unfold has_char in *. cbn [existsb]. rewrite orb_true_iff, IH. split.
    - intros [H|H]; [left; apply Ascii.eqb_eq in H; now symmetry|now right].
    - intros [H|H]; [left; now apply Ascii.eqb_eq|now right]. }
  destruct (has_char "-" d) eqn:Eh.
  - assert (Hin : In "-"%char d) by now apply HC.
    destruct (match_describe d) as [[[t num] hex]|] eqn:Em.
    + pose proof Em as Em'. apply match_describe_sound in Em. destruct Em as [Hds (tail & Ht & Es)].
      destruct (starts_with cfg_tag_prefix t) eqn:Ep.
      * apply starts_with_iff in Ep. destruct Ep as [tag Et]. change cfg_tag_prefix with (T "v") in Et.
        pose proof Hds as (_ & _ & M1 & M2 & _). destruct (nat_of_text_digits num M1 M2) as [m ->].
        destruct (g_show g) as [sh|]; cbn [option_map].
        -- split; [intros (x & _ & E); discriminate|]. intros (_ & _ & [[H _]|[H _]]); [contradiction|discriminate].
        -- split; [|intros _; exists VAttributeError; split; [discriminate|reflexivity]]. intros _.
           split; [discriminate|]. split; [discriminate|]. right. split; [reflexivity|]. exists tag, num, hex, tail.
           rewrite <- Et. auto.
      * split; [intros (x & _ & E); discriminate|]. intros (_ & _ & [[H _]|[_ (tag & num' & hex' & tail' & D & Ht' & E')]]); [contradiction|].
        rewrite E' in Em'. rewrite match_describe_complete in Em' by assumption. injection Em' as <- _ _.
        assert (Y : starts_with cfg_tag_prefix (T "v" ++ tag) = true) by (apply starts_with_iff; now exists tag). exfalso. exact (eq_true_false_abs _ Y Ep).
    + split; [intros (x & _ & E); discriminate|]. intros (_ & _ & [[H _]|[_ (tag & num' & hex' & tail' & D & Ht' & E')]]); [contradiction|].
      rewrite E' in Em. rewrite match_describe_complete in Em by assumption. discriminate.
  - assert (Hn : ~ In "-"%char d) by (rewrite <- HC; discriminate).
    assert (N2 : ~ exists tag num hex tail, describes (T "v" ++ tag) num hex /\ (tail = [] \/ tail = [newline])
                   /\ d = (T "v" ++ tag) ++ T "-" ++ num ++ T "-g" ++ hex ++ tail).
    { intros (tag & num & hex & tail & _ & _ & E). apply Hn. rewrite E. apply in_or_app. right. now left. }
    destruct (g_count g) as [c|]; cbn [option_map].
    2:{ split; [|intros _; exists VTypeError; split; [discriminate|reflexivity]]. intros _. split; [discriminate|].
        split; [discriminate|]. left. split; [exact Hn|]. right. discriminate. }
    destruct (int_of_text (bstrip c)) as [n|x] eqn:Ei; cbn [vbind].
    + destruct (g_show g) as [sh|]; cbn [option_map].
      * split; [intros (x & _ & E); discriminate|]. intros (_ & _ & [[_ [H|H]]|[H _]]); try discriminate.
        now contradiction (H c n eq_refl).
      * split; [|intros _; exists VAttributeError; split; [discriminate|reflexivity]]. intros _.
        split; [discriminate|]. split; [discriminate|]. left. auto.
    + assert (Hx : x <> NotThisMethod).
      { intros ->. clear - Ei. unfold int_of_text in Ei. destruct (strip (bstrip c)) as [|a r]; [discriminate|].
        destruct (if Ascii.eqb a "-" then _ else _) as [sign ds]. destruct (nat_of_text ds); discriminate. }
      split; [|intros _; exists x; auto]. intros _. split; [discriminate|]. split; [discriminate|]. left.
      split; [exact Hn|]. right. intros c' n' E. injection E as <-. congruence.
Qed.
Print Assumptions C68_raises_exactly.

(** No git at all. *)
Example C68_case : get_versions repo_keywords (Some (T "/x/gcs/_version.py")) (Git None None None (Some (T "1")) (Some []))
  = VOk (Versions (T "0+unknown") None None (Some (T "unable to compute version")) None).
Proof. reflexivity. Qed.

(** * C69 *)
Definition path_name (c : text) : Prop := c <> [] /\ ~ In "/"%char c.

Lemma last_component_app acc s c : ~ In "/"%char c -> last_component acc (s ++ "/"%char :: c) = c.
Proof.
  intros Hc. assert (G : forall acc c, ~ In "/"%char c -> last_component acc c = acc ++ c).
  { clear. intros acc c. revert acc. induction c as [|x c IH]; cbn; intros acc H; [now rewrite app_nil_r|].
    destruct (Ascii.eqb x "/") eqn:E; [apply Ascii.eqb_eq in E; tauto|]. rewrite IH by tauto. now rewrite <- app_assoc. }
  revert acc. induction s as [|x s IH]; cbn; intros acc.
  - now rewrite G.
  - destruct (Ascii.eqb x "/"); apply IH.
Qed.

Lemma basename_app s c : ~ In "/"%char c -> basename (s ++ T "/" ++ c) = c.
Proof. apply last_component_app. Qed.

Lemma dirname_app s b c : path_name b -> ~ In "/"%char c ->
  dirname (s ++ T "/" ++ b ++ T "/" ++ c) = s ++ T "/" ++ b.
Proof.
  intros [Hb Hbs] Hc. unfold dirname.
  replace (s ++ T "/" ++ b ++ T "/" ++ c) with ((s ++ T "/" ++ b) ++ T "/" ++ c) by now rewrite <- !app_assoc.
  rewrite basename_app by exact Hc.
  replace (length ((s ++ T "/" ++ b) ++ T "/" ++ c) - length c)%nat with (length ((s ++ T "/" ++ b) ++ T "/")).
  2:{ rewrite !app_length. lia. }
  replace ((s ++ T "/" ++ b) ++ T "/" ++ c) with (((s ++ T "/" ++ b) ++ T "/") ++ c) by now rewrite <- !app_assoc.
  rewrite firstn_app_len, rev_app_distr. cbn [rev app T list_ascii_of_string lstrip_by].
  change (Ascii.eqb "/" "/") with true. cbn [lstrip_by].
  rewrite lstrip_by_stop.
  2:{ rewrite rev_app_distr. change (rev ("/"%char :: b)) with (rev b ++ ["/"%char]). rewrite <- app_assoc.
      assert (Hr : ~ In "/"%char (rev b)) by (intros H; apply Hbs; now apply in_rev).
      destruct (rev b) as [|x r] eqn:E; [now apply rev_nil_iff in E|]. cbn [app].
      apply Ascii.eqb_neq. intros <-. apply Hr. now left. }
  rewrite rev_involutive. destruct (s ++ "/"%char :: b) eqn:E; [|reflexivity]. now destruct s.
Qed.

(** The first of the three innermost directories whose name has the prefix gives
    the version. *)
Theorem C69_parent_directories : forall prefix top a b c,
  path_name a -> path_name b -> path_name c ->
  versions_from_parentdir prefix (top ++ T "/" ++ c ++ T "/" ++ b ++ T "/" ++ a)
  = let version s := VOk (Versions (skipn (length prefix) s) None (Some false) None None) in
    if starts_with prefix a then version a
    else if starts_with prefix b then version b
    else if starts_with prefix c then version c
    else VRaise NotThisMethod.
Proof.
  intros prefix top a b c [Na Ha] Hb Hc. pose proof Hb as [Nb Hb']. pose proof Hc as [Nc Hc'].
  unfold versions_from_parentdir. cbn [parentdir_loop].
  assert (E1 : basename (top ++ T "/" ++ c ++ T "/" ++ b ++ T "/" ++ a) = a).
  { replace (top ++ T "/" ++ c ++ T "/" ++ b ++ T "/" ++ a) with ((top ++ T "/" ++ c ++ T "/" ++ b) ++ T "/" ++ a)
      by now rewrite <- !app_assoc. now apply basename_app. }
  assert (E2 : dirname (top ++ T "/" ++ c ++ T "/" ++ b ++ T "/" ++ a) = top ++ T "/" ++ c ++ T "/" ++ b).
  { replace (top ++ T "/" ++ c ++ T "/" ++ b ++ T "/" ++ a) with ((top ++ T "/" ++ c) ++ T "/" ++ b ++ T "/" ++ a)
      by now rewrite <- !app_assoc. rewrite dirname_app by assumption. now rewrite <- !app_assoc. }
  assert (E3 : basename (top ++ T "/" ++ c ++ T "/" ++ b) = b).
  { replace (top ++ T "/" ++ c ++ T "/" ++ b) with ((top ++ T "/" ++ c) ++ T "/" ++ b)
      by now rewrite <- !app_assoc. now apply basename_app. }
  assert (E4 : dirname (top ++ T "/" ++ c ++ T "/" ++ b) = top ++ T "/" ++ c) by now apply dirname_app.
  assert (E5 : basename (top ++ T "/" ++ c) = c) by now apply basename_app.
  rewrite E1. cbn zeta. destruct (starts_with prefix a); [reflexivity|].
  rewrite E2, E3. destruct (starts_with prefix b); [reflexivity|].
  rewrite E4, E5. destruct (starts_with prefix c); reflexivity.
Qed.
Print Assumptions C69_parent_directories.

Example C69_case : (match versions_from_parentdir (T "gcs-") (T "/tmp/gcs-0.1/src/gcs") with
                    | VOk v => Some (v_version v) | _ => None end) = Some (T "0.1")
  /\ path_name (T "gcs-0.1").
Proof. split; [reflexivity|]. split; [discriminate|]. cbn. intuition discriminate. Qed.

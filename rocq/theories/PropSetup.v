(** C77, C82: what [python versioneer.py setup] does to a source tree. *)
From Coq Require Import String Ascii Bool Arith Lia List.
From Verif Require Import Version VersionFacts Versioneer Setup.
Import ListNotations.
Open Scope list_scope.

(** * Specification *)

(** [w] stands in [s] between two separators (or the ends of [s]) and contains
    none. *)
Definition field (sep : ascii -> bool) (w s : text) : Prop :=
  exists p q, s = p ++ w ++ q /\ Forall (fun c => sep c = false) w
    /\ (p = [] \/ exists p' c, p = p' ++ [c] /\ sep c = true)
    /\ (q = [] \/ exists c q', q = c :: q' /\ sep c = true).
(** A line end is a newline or a carriage return. *)
Definition is_eol (c : ascii) : bool := Ascii.eqb c newline || Ascii.eqb c (ascii_of_nat 13).
Definition is_line (l s : text) : Prop := field is_eol l s.
Definition is_word (w s : text) : Prop := w <> [] /\ field is_space w s.

(** MANIFEST.in has an include line that names [file]. *)
Definition includes (file s : text) : Prop := exists r, is_line (T "include " ++ r) s /\ is_word file r.
(** .gitattributes has a line with the pattern [file] and the attribute export-subst. *)
Definition exported (file s : text) : Prop :=
  exists sp c r, is_line (sp ++ file ++ c :: r) s /\ Forall (fun x => is_space x = true) sp
    /\ is_space c = true /\ is_word (T "export-subst") r.
(** The last line is complete. *)
Definition ends_line (s : text) : Prop := s = [] \/ exists p c, s = p ++ [c] /\ is_eol c = true.
(** A path without white space. *)
Definition path (p : text) : Prop := p <> [] /\ Forall (fun c => is_space c = false) p.

(** * Fields *)
Lemma split_by_nil f s : split_by f s <> [].
Proof. destruct s as [|c s]; cbn; [discriminate|]. destruct (f c); [discriminate|]. destruct (split_by f s); discriminate. Qed.

Lemma split_by_cons f c s : f c = false -> exists l ls, split_by f s = l :: ls /\ split_by f (c :: s) = (c :: l) :: ls.
Proof.
  intros H. cbn. rewrite H. pose proof (split_by_nil f s). destruct (split_by f s) as [|l ls]; [congruence|]. eauto.
Qed.

(** The first field, and the others. *)
Lemma split_by_app f a c b : Forall (fun c => f c = false) a -> f c = true ->
  split_by f (a ++ c :: b) = a :: split_by f b.
Proof.
  intros Ha Hc. induction Ha as [|x a Hx _ IH]; cbn; [now rewrite Hc|]. now rewrite Hx, IH.
Qed.
Lemma split_by_all f a : Forall (fun c => f c = false) a -> split_by f a = [a].
Proof. intros Ha. induction Ha as [|x a Hx _ IH]; cbn; [reflexivity|]. now rewrite Hx, IH. Qed.

Lemma span_cases f (s : text) : Forall (fun c => f c = false) s
  \/ exists a c b, s = a ++ c :: b /\ Forall (fun c => f c = false) a /\ f c = true.
Proof.
  induction s as [|c s [IH|(a & d & b & -> & Ha & Hd)]]; [left; constructor| |].
  - destruct (f c) eqn:E; [right; exists [], c, s; auto|left; now constructor].
  - right. destruct (f c) eqn:E; [exists [], c, (a ++ d :: b); auto|exists (c :: a), d, b; auto].
Qed.

Lemma field_split f w s : field f w s <-> In w (split_by f s).
Proof.
  split.
  - intros (p & q & -> & Hw & Hp & Hq).
    assert (W : In w (split_by f (w ++ q))).
    { destruct Hq as [->|(c & q' & -> & Hc)]; [rewrite app_nil_r, split_by_all by exact Hw|rewrite split_by_app by assumption]; now left. }
    destruct Hp as [->|(p' & c & -> & Hc)]; [exact W|]. rewrite <- app_assoc. cbn [app].
    induction p' as [|d p' IH]; cbn [app].
    + cbn [split_by]. rewrite Hc. now right.
    + destruct (f d) eqn:Ed; [cbn [split_by]; rewrite Ed; now right|].
      destruct (split_by_cons f d (p' ++ c :: w ++ q) Ed) as (l & ls & E1 & E2). rewrite E2.
      (* the head field is extended; it cannot be the one of w *)
      assert (K : In w (tl (split_by f (p' ++ c :: w ++ q)))).
      { clear - W Hc. induction p' as [|e p' IH]; cbn [app split_by]; [rewrite Hc; exact W|].
        destruct (f e) eqn:Ee.
        - cbn [tl]. destruct (split_by f (p' ++ c :: w ++ q)); [destruct IH|]. now right.
        - pose proof (split_by_nil f (p' ++ c :: w ++ q)). destruct (split_by f (p' ++ c :: w ++ q)); [congruence|]. exact IH. }
      rewrite E1 in K. cbn [tl] in K. now right.
  - revert w. remember (List.length s) as n. revert s Heqn. induction n as [n IH] using lt_wf_ind. intros s -> w.
    destruct (span_cases f s) as [H|(a & c & b & -> & Ha & Hc)].
    + rewrite split_by_all by exact H. intros [<-|[]]. exists [], []. rewrite app_nil_r. auto 10.
    + rewrite split_by_app by assumption. intros [<-|Hin].
      * exists [], (c :: b). split; [reflexivity|]. split; [exact Ha|]. split; [now left|]. right. eauto.
      * apply (IH (List.length b)) in Hin; [|rewrite app_length; cbn; lia|reflexivity].
        destruct Hin as (p & q & -> & Hw & Hp & Hq). exists (a ++ c :: p), q.
        split; [now rewrite <- app_assoc|]. split; [exact Hw|]. split; [|exact Hq]. right.
        destruct Hp as [->|(p' & d & -> & Hd)]; [exists a, c; auto|]. exists (a ++ c :: p'), d.
        split; [now rewrite <- app_assoc|exact Hd].
Qed.

Lemma word_words w s : is_word w s <-> In w (words s).
Proof.
  unfold is_word, words. rewrite filter_In, <- field_split. destruct w; cbn; intuition congruence.
Qed.

(** * Lines *)
Lemma eol_space c : is_eol c = true -> is_space c = true.
Proof.
  unfold is_eol. rewrite orb_true_iff, !Ascii.eqb_eq. intros [->| ->]; reflexivity.
Qed.

(** The lines of a file that are not empty. *)
Definition full_lines (s : text) : list text := filter nonempty (split_by is_eol s).

Lemma universal_split s : exists l ls ms, split_by is_eol s = l :: ls /\ split_by is_eol (universal s) = l :: ms
  /\ filter nonempty ls = filter nonempty ms.
Proof.
  remember (List.length s) as n. revert s Heqn. induction n as [n IH] using lt_wf_ind. intros s ->.
  destruct s as [|c s]; [exists [], [], []; auto|]. cbn [universal].
  destruct (Ascii.eqb_spec c carriage_return) as [->|Hc].
  - destruct s as [|d s]; [exists [], [[]], [[]]; auto|].
    destruct (Ascii.eqb_spec d newline) as [->|Hd].
    + destruct (IH (List.length s) ltac:(cbn; lia) s eq_refl) as (l & ls & ms & E1 & E2 & E3).
      exists [], ([] :: l :: ls), (l :: ms). cbn. rewrite E1, E2. repeat split. cbn. now rewrite E3.
    + destruct (IH (List.length (d :: s)) ltac:(cbn; lia) (d :: s) eq_refl) as (l & ls & ms & E1 & E2 & E3).
      exists [], (l :: ls), (l :: ms). split; [change (is_eol carriage_return) with true; cbn [split_by]; change (is_eol carriage_return) with true; now rewrite <- E1|].
      split; [cbn [split_by]; change (is_eol newline) with true; now rewrite E2|]. cbn. now rewrite E3.
  - destruct (IH (List.length s) ltac:(cbn; lia) s eq_refl) as (l & ls & ms & E1 & E2 & E3).
    destruct (is_eol c) eqn:Ec.
    + exists [], (l :: ls), (l :: ms). cbn [split_by]. rewrite Ec, E1, E2. repeat split. cbn. now rewrite E3.
    + exists (c :: l), ls, ms. cbn [split_by]. rewrite Ec, E1, E2. auto.
Qed.

Lemma full_lines_universal s : full_lines (universal s) = full_lines s.
Proof.
  unfold full_lines. destruct (universal_split s) as (l & ls & ms & -> & -> & E). cbn. now rewrite E.
Qed.

Definition no_cr (s : text) : Prop := ~ In carriage_return s.
Lemma universal_no_cr s : no_cr (universal s).
Proof.
  unfold no_cr. remember (List.length s) as n. revert s Heqn. induction n as [n IH] using lt_wf_ind. intros s ->.
  destruct s as [|c s]; [intros []|]. cbn [universal]. destruct (Ascii.eqb_spec c carriage_return) as [->|Hc].
  - destruct s as [|d s]; [intros [E|[]]; discriminate E|].
    destruct (Ascii.eqb d newline); intros [E|H]; try discriminate E;
      [apply (IH (List.length s) ltac:(cbn; lia) s eq_refl H)|apply (IH (List.length (d :: s)) ltac:(cbn; lia) (d :: s) eq_refl H)].
  - intros [E|H]; [congruence|]. apply (IH (List.length s) ltac:(cbn; lia) s eq_refl H).
Qed.

(** A property of lines that does not see the newline at the end and fails for
    empty lines. *)
Lemma lines_exists (P : text -> bool) s : no_cr s -> P [] = false ->
  (forall l, P (l ++ [newline]) = P l) ->
  existsb P (lines s) = existsb P (full_lines s).
Proof.
  intros Hs P0 PN.
  assert (F : forall ls, existsb P (filter nonempty ls) = existsb P ls).
  { induction ls as [|l ls IH]; [reflexivity|]. destruct l as [|c l]; cbn; [now rewrite P0|]. now rewrite IH. }
  unfold full_lines. rewrite F.
  assert (K : forall s, no_cr s -> match lines s, split_by is_eol s with
     | [], ms => ms = [[]]
     | l :: ls, m :: ms => (l = m /\ ls = [] /\ ms = []) \/ (l = m ++ [newline] /\ existsb P ls = existsb P ms)
     | _, _ => False end).
  { clear - P0 PN. induction s as [|c s IH]; intros Hs; cbn [lines split_by]; [reflexivity|].
    assert (Hs' : no_cr s) by (intros H; apply Hs; now right). specialize (IH Hs').
    assert (Ec : is_eol c = Ascii.eqb c newline).
    { unfold is_eol. destruct (Ascii.eqb_spec c (ascii_of_nat 13)) as [->|]; [exfalso; apply Hs; now left|apply orb_false_r]. }
    rewrite Ec. destruct (Ascii.eqb c newline).
    - right. split; [reflexivity|]. destruct (lines s) as [|l ls].
      + rewrite IH. cbn. now rewrite P0.
      + destruct (split_by is_eol s) as [|m ms]; [contradiction|]. cbn.
        destruct IH as [(-> & -> & ->)|[-> ->]]; [reflexivity|]. now rewrite PN.
    - destruct (lines s) as [|l ls]; [rewrite IH; left; auto|].
      destruct (split_by is_eol s) as [|m ms]; [contradiction|].
      destruct IH as [(-> & -> & ->)|[-> IH]]; [left; auto|right; auto]. }
  specialize (K s Hs). destruct (lines s) as [|l ls]; [rewrite K; cbn; now rewrite P0|].
  destruct (split_by is_eol s) as [|m ms]; [contradiction|]. cbn.
  destruct K as [(-> & -> & ->)|[-> ->]]; [reflexivity|]. now rewrite PN.
Qed.

(** * Words *)
Lemma split_by_sep f a c b : f c = true -> split_by f (a ++ c :: b) = split_by f a ++ split_by f b.
Proof.
  intros Hc. induction a as [|x a IH]; cbn; [now rewrite Hc|]. rewrite IH. destruct (f x); [reflexivity|].
  pose proof (split_by_nil f a). destruct (split_by f a); [congruence|]. reflexivity.
Qed.

Lemma words_sep a c b : is_space c = true -> words (a ++ c :: b) = words a ++ words b.
Proof. intros H. unfold words. now rewrite split_by_sep, filter_app. Qed.
Lemma words_space a : Forall (fun c => is_space c = true) a -> words a = [].
Proof.
  induction 1 as [|c a Hc _ IH]; [reflexivity|]. change (c :: a) with ([] ++ c :: a). rewrite words_sep by exact Hc. exact IH.
Qed.
Lemma words_pad a s b : Forall (fun c => is_space c = true) a -> Forall (fun c => is_space c = true) b ->
  words (a ++ s ++ b) = words s.
Proof.
  intros Ha Hb.
  assert (E : words (s ++ b) = words s).
  { destruct Hb as [|c b Hc Hb]; [now rewrite app_nil_r|]. rewrite words_sep by exact Hc.
    now rewrite (words_space b Hb), app_nil_r. }
  induction Ha as [|c a Hc _ IH]; [exact E|]. change ((c :: a) ++ s ++ b) with ([] ++ c :: (a ++ s ++ b)).
  rewrite words_sep by exact Hc. exact IH.
Qed.
Lemma words_one w : path w -> words w = [w].
Proof. intros [Hn Hw]. unfold words. rewrite split_by_all by exact Hw. destruct w; [congruence|reflexivity]. Qed.
Lemma words_first w c r : path w -> is_space c = true -> words (w ++ c :: r) = w :: words r.
Proof. intros Hw Hc. rewrite words_sep by exact Hc. now rewrite words_one. Qed.

Lemma mem_In x l : mem x l = true <-> In x l.
Proof.
  unfold mem. rewrite existsb_exists. split; [intros (y & Hy & E); apply text_eqb_eq in E; now subst y|].
  intros H. exists x. split; [exact H|]. now apply text_eqb_eq.
Qed.

(** * strip *)
Lemma lstrip_split f s : exists a, s = a ++ lstrip_by f s /\ Forall (fun c => f c = true) a
  /\ match lstrip_by f s with [] => True | c :: _ => f c = false end.
Proof.
  induction s as [|c s (a & IH & Ha & Hs)]; [exists []; repeat split; constructor|]. cbn [lstrip_by]. destruct (f c) eqn:E.
  - exists (c :: a). split; [cbn; congruence|]. auto.
  - exists []. auto.
Qed.

Lemma strip_split f s : exists a b, s = a ++ strip_by f s ++ b /\ Forall (fun c => f c = true) a
  /\ Forall (fun c => f c = true) b /\ unpadded f (strip_by f s).
Proof.
  unfold strip_by. destruct (lstrip_split f s) as (a & E & Ha & Hm). set (m := lstrip_by f s) in *.
  destruct (lstrip_split f (rev m)) as (b & Eb & Hb & Hn). set (n := lstrip_by f (rev m)) in *.
  assert (Em : m = rev n ++ rev b) by (rewrite <- rev_app_distr, <- Eb; now rewrite rev_involutive).
  exists a, (rev b). split; [rewrite E at 1; now rewrite Em|]. split; [exact Ha|]. split; [now apply Forall_rev|].
  split.
  - destruct (rev n) as [|c r] eqn:Er; [exact I|]. rewrite Em in Hm. exact Hm.
  - rewrite rev_involutive. exact Hn.
Qed.

Lemma strip_words s : words (strip s) = words s.
Proof.
  destruct (strip_split is_space s) as (a & b & E & Ha & Hb & _). rewrite E at 2. now rewrite words_pad.
Qed.

Lemma strip_snoc c s : is_space c = true -> strip (s ++ [c]) = strip s.
Proof.
  intros Hc. destruct (strip_split is_space s) as (a & b & E & Ha & Hb & Hu). rewrite E at 1.
  rewrite <- !app_assoc. unfold strip. apply strip_by_pad; auto. apply Forall_app. auto.
Qed.

Lemma starts_with_snoc p l x : ~ In x p -> starts_with p (l ++ [x]) = starts_with p l.
Proof.
  revert l. induction p as [|c p IH]; intros l H; [reflexivity|]. destruct l as [|d l]; cbn.
  - destruct (Ascii.eqb_spec c x) as [->|]; [exfalso; apply H; now left|]. reflexivity.
  - rewrite IH; [reflexivity|]. intros K. apply H. now right.
Qed.

Lemma path_newline p : path p -> ~ In newline p.
Proof. intros [_ H] K. rewrite Forall_forall in H. specialize (H _ K). discriminate H. Qed.

Lemma existsb_flat_map {A} (x : text) (f : A -> list text) l : mem x (flat_map f l) = existsb (fun a => mem x (f a)) l.
Proof. unfold mem. induction l as [|a l IH]; cbn; [reflexivity|]. now rewrite existsb_app, IH. Qed.

(** * MANIFEST.in *)
Lemma full_line_iff (P : text -> bool) s : P [] = false ->
  (existsb P (full_lines s) = true <-> exists l, is_line l s /\ P l = true).
Proof.
  intros P0. rewrite existsb_exists. unfold full_lines, is_line. split.
  - intros (l & Hl & HP). apply filter_In in Hl. exists l. split; [apply field_split, Hl|exact HP].
  - intros (l & Hl & HP). exists l. split; [|exact HP]. apply filter_In. split; [now apply field_split|].
    destruct l; [congruence|reflexivity].
Qed.

Lemma include_word x r : In x (include_line (T "include " ++ r)) <-> is_word x r.
Proof.
  unfold include_line. rewrite starts_with_app, word_words.
  change (T "include " ++ r) with (T "include" ++ " "%char :: r). rewrite words_first; [reflexivity| |reflexivity].
  split; [discriminate|repeat constructor].
Qed.

Lemma simple_includes_iff x c : mem x (simple_includes c) = true <-> includes x c.
Proof.
  unfold simple_includes. rewrite existsb_flat_map, lines_exists.
  - rewrite full_lines_universal, full_line_iff by reflexivity. unfold includes. split.
    + intros (l & Hl & Hx). apply mem_In in Hx. destruct (starts_with (T "include ") l) eqn:E.
      * apply starts_with_iff in E. destruct E as [r ->]. exists r. split; [exact Hl|apply (proj1 (include_word x r)), Hx].
      * unfold include_line in Hx. rewrite E in Hx. destruct Hx.
    + intros (r & Hl & Hx). eexists. split; [exact Hl|]. apply mem_In. apply (proj2 (include_word x r)), Hx.
  - apply universal_no_cr.
  - reflexivity.
  - intros l. unfold include_line. rewrite starts_with_snoc; [|cbn; intuition discriminate].
    destruct (starts_with (T "include ") l); [|reflexivity]. rewrite words_sep by reflexivity.
    cbn. now rewrite app_nil_r.
Qed.

Lemma includes_dec x c : includes x c \/ ~ includes x c.
Proof. rewrite <- simple_includes_iff. destruct (mem _ _); [now left|right; discriminate]. Qed.

(** * .gitattributes *)
Lemma word_span s : exists w r, s = w ++ r /\ Forall (fun c => is_space c = false) w
  /\ (r = [] \/ exists c r', r = c :: r' /\ is_space c = true).
Proof.
  destruct (span_cases is_space s) as [H|(a & c & b & -> & Ha & Hc)].
  - exists s, []. rewrite app_nil_r. auto.
  - exists a, (c :: b). split; [reflexivity|]. split; [exact Ha|]. right. eauto.
Qed.

Lemma strip_first sp f c r : Forall (fun x => is_space x = true) sp -> path f -> is_space c = true ->
  exists r', strip (sp ++ f ++ c :: r) = f ++ r' /\ (r' = [] \/ exists r'', r' = c :: r'').
Proof.
  intros Hsp [Hn Hf] Hc.
  destruct (lstrip_split is_space (rev (f ++ c :: r))) as (b & Eb & Hb & Hu).
  unfold strip, strip_by. rewrite lstrip_by_pad by exact Hsp.
  rewrite (lstrip_by_stop is_space (f ++ c :: r)).
  2:{ destruct f as [|x f]; [congruence|]. now inversion Hf. }
  set (n := lstrip_by is_space (rev (f ++ c :: r))) in *.
  assert (E : f ++ c :: r = rev n ++ rev b) by (rewrite <- rev_app_distr, <- Eb; now rewrite rev_involutive).
  clearbody n. clear Eb. apply Forall_rev in Hb. set (m := rev n) in *. set (b' := rev b) in *.
  assert (L : exists r', m = f ++ r').
  { clearbody m b'. clear Hn Hu Hc. revert m E. induction Hf as [|x f Hx Hf IH]; intros m E; [exists m; reflexivity|].
    destruct m as [|y m]; cbn in E.
    - exfalso. destruct b' as [|y b']; [discriminate|]. injection E as <- _. inversion Hb. congruence.
    - injection E as <- E. destruct (IH m E) as [r' ->]. exists r'. reflexivity. }
  destruct L as [r' L]. exists r'. split; [exact L|]. rewrite L, <- app_assoc in E. apply app_inv_head in E.
  destruct r' as [|y r']; [now left|]. cbn in E. injection E as <- _. right. now exists r'.
Qed.

Lemma marks_iff source l : path source ->
  (marks_line source l = true <-> exists sp suffix c r, l = sp ++ (source ++ suffix) ++ c :: r
     /\ Forall (fun x => is_space x = true) sp /\ Forall (fun x => is_space x = false) suffix
     /\ is_space c = true /\ is_word (T "export-subst") r).
Proof.
  intros Hs. unfold marks_line. rewrite andb_true_iff, mem_In, strip_words.
  destruct Hs as [Hn Hs].
  assert (Hp : forall x, Forall (fun x => is_space x = false) x -> path (source ++ x)).
  { intros x Hx. split; [destruct source; [congruence|discriminate]|now apply Forall_app]. }
  split.
  - intros [H1 H2]. apply starts_with_iff in H1. destruct H1 as [t Et].
    destruct (strip_split is_space l) as (a & b & E & Ha & Hb & _). fold (strip l) in E. rewrite Et in E.
    destruct (word_span t) as (suffix & r & -> & Hx & Hr).
    assert (W : words l = words ((source ++ suffix) ++ r)).
    { rewrite E, words_pad by assumption. now rewrite <- app_assoc. }
    rewrite W in H2. destruct Hr as [->|(c & r' & -> & Hc)].
    + rewrite app_nil_r, words_one in H2 by now apply Hp. destruct H2.
    + rewrite words_first in H2 by (try exact Hc; now apply Hp). cbn [tl] in H2.
      exists a, suffix, c, (r' ++ b). split; [rewrite E, <- !app_assoc; reflexivity|]. repeat (split; [assumption|]).
      apply word_words. rewrite <- (words_pad [] r' b) in H2 by auto. exact H2.
  - intros (sp & suffix & c & r & -> & Hsp & Hx & Hc & Hw). split.
    + destruct (strip_first sp (source ++ suffix) c r Hsp (Hp _ Hx) Hc) as (r' & -> & _).
      rewrite <- app_assoc. apply starts_with_app.
    + rewrite <- (app_nil_r (_ ++ c :: r)), words_pad by auto. rewrite words_first by (try exact Hc; now apply Hp).
      cbn [tl]. now apply word_words.
Qed.

Lemma marks_exists source c : path source ->
  (existsb (marks_line source) (lines (universal c)) = true
   <-> exists suffix, Forall (fun x => is_space x = false) suffix /\ exported (source ++ suffix) c).
Proof.
  intros Hs. assert (P0 : marks_line source [] = false).
  { destruct (marks_line source []) eqn:E; [|reflexivity]. apply marks_iff in E; [|exact Hs].
    destruct E as (sp & x & d & r & E & _). destruct sp, (source ++ x); discriminate. }
  rewrite lines_exists, full_lines_universal, full_line_iff; [|exact P0|apply universal_no_cr|exact P0|].
  - split.
    + intros (l & Hl & Hm). apply marks_iff in Hm; [|exact Hs]. destruct Hm as (sp & x & d & r & -> & Hsp & Hx & Hd & Hw).
      exists x. split; [exact Hx|]. exists sp, d, r. auto.
    + intros (x & Hx & sp & d & r & Hl & Hsp & Hd & Hw). exists (sp ++ (source ++ x) ++ d :: r). split; [exact Hl|].
      apply marks_iff; [exact Hs|]. exists sp, x, d, r. auto 6.
  - intros l. unfold marks_line. rewrite strip_snoc by reflexivity. reflexivity.
Qed.

(** * Appending lines *)
Lemma full_lines_app c a : ends_line c -> full_lines (c ++ a) = full_lines c ++ full_lines a.
Proof.
  intros [->|(p & e & -> & He)]; [reflexivity|]. unfold full_lines. rewrite <- app_assoc. cbn [app].
  rewrite !split_by_sep by exact He. rewrite !filter_app. cbn [split_by filter nonempty]. now rewrite app_nil_r.
Qed.

Lemma no_eol_line l : Forall (fun c => is_eol c = false) l -> l <> [] -> forall r,
  full_lines (l ++ newline :: r) = l :: full_lines r.
Proof.
  intros Hl Hn r. unfold full_lines. rewrite split_by_app by (auto; reflexivity). destruct l; [congruence|reflexivity].
Qed.

Lemma nonspace_no_eol l : Forall (fun c => is_space c = false) l -> Forall (fun c => is_eol c = false) l.
Proof.
  apply Forall_impl. intros c Hc. destruct (is_eol c) eqn:E; [|reflexivity]. apply eol_space in E. congruence.
Qed.

Lemma line_full l s : l <> [] -> (is_line l s <-> In l (full_lines s)).
Proof. intros Hl. unfold is_line, full_lines. rewrite field_split, filter_In. destruct l; [congruence|]. cbn. tauto. Qed.

Lemma ends_line_app c a : ends_line c -> ends_line a -> ends_line (c ++ a).
Proof.
  intros Hc [->|(p & e & -> & He)]; [now rewrite app_nil_r|]. right. exists (c ++ p), e. split; [apply app_assoc|exact He].
Qed.
Lemma ends_newline c a : ends_line (c ++ a ++ [newline]).
Proof. right. exists (c ++ a), newline. split; [apply app_assoc|reflexivity]. Qed.

Lemma includes_full f s : includes f s <-> exists r, In (T "include " ++ r) (full_lines s) /\ is_word f r.
Proof.
  unfold includes. split; intros (r & H1 & H2); exists r; (split; [|exact H2]);
    now apply (proj1 (line_full (T "include " ++ r) s ltac:(discriminate))) || now apply (proj2 (line_full (T "include " ++ r) s ltac:(discriminate))).
Qed.

Lemma includes_app f c a : ends_line c -> (includes f (c ++ a) <-> includes f c \/ includes f a).
Proof.
  intros Hc. rewrite !includes_full, full_lines_app by exact Hc. split.
  - intros (r & H & Hw). apply in_app_or in H. destruct H; eauto.
  - intros [(r & H & Hw)|(r & H & Hw)]; exists r; (split; [apply in_or_app; auto|exact Hw]).
Qed.

Lemma path_word f : path f -> is_word f f.
Proof. intros Hf. apply word_words. rewrite words_one by exact Hf. now left. Qed.

Lemma includes_line f a : path f -> includes f (T "include " ++ f ++ newline :: a).
Proof.
  intros Hf. apply includes_full. exists f. split; [|now apply path_word].
  rewrite app_assoc, no_eol_line; [now left| |discriminate].
  apply Forall_app. split; [repeat constructor|]. apply nonspace_no_eol, Hf.
Qed.

(** * Substrings *)
Definition within (p s : text) : Prop := exists a b, s = a ++ p ++ b.
Lemma contains_iff p s : contains p s = true <-> within p s.
Proof.
  unfold within. induction s as [|c s IH]; cbn [contains]; rewrite orb_true_iff, starts_with_iff.
  - split; [intros [[r E]|]; [|discriminate]; exists [], r; exact E|].
    intros (a & b & E). left. destruct a; [exists b; exact E|discriminate].
  - rewrite IH. split.
    + intros [[r E]|(a & b & E)]; [exists [], r; exact E|]. exists (c :: a), b. cbn. congruence.
    + intros (a & b & E). destruct a as [|x a]; [left; exists b; exact E|]. cbn in E. injection E as -> E. right. eauto.
Qed.

Lemma within_line p c : Forall (fun x => is_eol x = false) p ->
  (within p c <-> exists l, is_line l c /\ within p l).
Proof.
  intros Hp. split.
  - intros (a & b & ->).
    assert (A : exists a1 a2, a = a1 ++ a2 /\ Forall (fun x => is_eol x = false) a2
                  /\ (a1 = [] \/ exists q e, a1 = q ++ [e] /\ is_eol e = true)).
    { destruct (span_cases is_eol (rev a)) as [H|(x & e & y & E & Hx & He)].
      - exists [], a. split; [reflexivity|]. split; [|now left]. apply Forall_rev in H. now rewrite rev_involutive in H.
      - apply (f_equal (@rev ascii)) in E. rewrite rev_involutive, rev_app_distr in E. cbn in E.
        exists (rev y ++ [e]), (rev x). split; [exact E|]. split; [now apply Forall_rev|]. right. eauto. }
    assert (B : exists b1 b2, b = b1 ++ b2 /\ Forall (fun x => is_eol x = false) b1
                  /\ (b2 = [] \/ exists e q, b2 = e :: q /\ is_eol e = true)).
    { destruct (span_cases is_eol b) as [H|(x & e & y & E & Hx & He)].
      - exists b, []. rewrite app_nil_r. auto.
      - exists x, (e :: y). split; [exact E|]. split; [exact Hx|]. right. eauto. }
    destruct A as (a1 & a2 & -> & Ha & Ha1). destruct B as (b1 & b2 & -> & Hb & Hb2).
    exists (a2 ++ p ++ b1). split.
    + exists a1, b2. split; [now rewrite <- !app_assoc|]. split; [|auto]. apply Forall_app. split; [exact Ha|].
      now apply Forall_app.
    + exists a2, b1. reflexivity.
  - intros (l & (x & y & -> & _) & (a & b & ->)). exists (x ++ a), (b ++ y). now rewrite <- !app_assoc.
Qed.

Lemma within_snoc p l x : ~ In x p -> p <> [] -> (within p (l ++ [x]) <-> within p l).
Proof.
  intros Hx Hp. split.
  - intros (a & b & E). destruct (exists_last (l := p ++ b)) as (m & y & Em); [destruct p; [congruence|discriminate]|].
    rewrite Em, app_assoc in E. apply app_inj_tail in E. destruct E as [El <-].
    destruct b as [|z b _] using rev_ind.
    + exfalso. apply Hx. rewrite app_nil_r in Em. rewrite Em. apply in_or_app. right. now left.
    + rewrite app_assoc in Em. apply app_inj_tail in Em. destruct Em as [Em _]. exists a, b. congruence.
  - intros (a & b & ->). exists a, (b ++ [x]). now rewrite <- !app_assoc.
Qed.

Lemma in_some_line_iff p c : p <> [] -> Forall (fun x => is_eol x = false) p ->
  (in_some_line p c = true <-> within p c).
Proof.
  intros Hn Hp. unfold in_some_line.
  assert (P0 : contains p [] = false) by (destruct p; [congruence|reflexivity]).
  assert (Hx : ~ In newline p).
  { intros K. rewrite Forall_forall in Hp. specialize (Hp _ K). discriminate Hp. }
  rewrite lines_exists, full_lines_universal, full_line_iff; [|exact P0|apply universal_no_cr|exact P0|].
  - rewrite (within_line p c Hp). split; intros (l & Hl & H); exists l; (split; [exact Hl|]); now apply contains_iff.
  - intros l. apply eq_true_iff_eq. rewrite !contains_iff. now apply within_snoc.
Qed.

(** * Theorems *)
Definition tool : text := T "versioneer.py".
Lemma path_tool : path tool. Proof. split; [discriminate|repeat constructor]. Qed.

(** The text appended to MANIFEST.in. *)
Lemma manifest_cases source o :
  exists add, contents (setup_manifest source o) = contents o ++ add
    /\ (add = [] -> setup_manifest source o = o)
    /\ (add <> [] -> setup_manifest source o = Some (contents o ++ add))
    /\ (includes tool (contents o) -> includes source (contents o) -> add = [])
    /\ (includes tool (contents o) -> ~ includes source (contents o) -> add = T "include " ++ source ++ [newline])
    /\ (~ includes tool (contents o) -> includes source (contents o) -> add = T "include " ++ tool ++ [newline])
    /\ (~ includes tool (contents o) -> ~ includes source (contents o) ->
        add = (T "include " ++ tool ++ [newline]) ++ T "include " ++ source ++ [newline]).
Proof.
  unfold setup_manifest. fold tool.
  pose proof (simple_includes_iff tool (contents o)) as I1. pose proof (simple_includes_iff source (contents o)) as I2.
  destruct (mem tool (simple_includes (contents o))); destruct (mem source (simple_includes (contents o)));
    eexists; (split; [destruct o; cbn [contents app]; try reflexivity; now rewrite app_nil_r|]);
    repeat split; intros; try reflexivity; try discriminate; try congruence;
    try (exfalso; intuition congruence); destruct o; cbn; try rewrite app_nil_r; reflexivity.
Qed.

(** MANIFEST.in is left alone exactly when include lines name both files. *)
Theorem C77_manifest_exact source o :
  setup_manifest source o = o <-> includes tool (contents o) /\ includes source (contents o).
Proof.
  destruct (manifest_cases source o) as (add & E & E0 & E1 & C1 & C2 & C3 & C4).
  destruct (includes_dec tool (contents o)) as [I1|I1]; destruct (includes_dec source (contents o)) as [I2|I2];
    [specialize (C1 I1 I2)|specialize (C2 I1 I2)|specialize (C3 I1 I2)|specialize (C4 I1 I2)]; subst add.
  - split; auto.
  - split; [|tauto]. intros H. exfalso. rewrite H, <- app_nil_r in E at 1. apply app_inv_head in E. discriminate.
  - split; [|tauto]. intros H. exfalso. rewrite H, <- app_nil_r in E at 1. apply app_inv_head in E. discriminate.
  - split; [|tauto]. intros H. exfalso. rewrite H, <- app_nil_r in E at 1. apply app_inv_head in E. discriminate.
Qed.
Print Assumptions C77_manifest_exact.

(** When the last line of MANIFEST.in is complete, both files are included
    afterwards, and the files that were included still are. *)
Theorem C77_manifest_partial source o : path source -> ends_line (contents o) ->
  let c := contents (setup_manifest source o) in
  includes tool c /\ includes source c
  /\ forall f, includes f (contents o) \/ f = tool \/ f = source <-> includes f c.
Proof.
  intros Hs Ho. cbn zeta. destruct (manifest_cases source o) as (add & E & _ & _ & C1 & C2 & C3 & C4). rewrite E.
  assert (L : forall f g, path g -> includes f (T "include " ++ g ++ [newline]) -> f = g).
  { intros f g Hg H. apply includes_full in H. destruct H as (r & H & Hw).
    rewrite app_assoc, no_eol_line in H; [|apply Forall_app; split; [repeat constructor|apply nonspace_no_eol, Hg]|discriminate].
    destruct H as [H|[]]. apply app_inv_head in H. subst r. apply word_words in Hw. rewrite words_one in Hw by exact Hg.
    destruct Hw as [Hw|[]]. congruence. }
  pose proof (includes_line tool [] path_tool) as LT. pose proof (includes_line source [] Hs) as LS.
  assert (A : forall f, includes f add -> f = tool \/ f = source).
  { intros f Hf. destruct (includes_dec tool (contents o)) as [I1|I1]; destruct (includes_dec source (contents o)) as [I2|I2];
    [specialize (C1 I1 I2)|specialize (C2 I1 I2)|specialize (C3 I1 I2)|specialize (C4 I1 I2)]; subst add.
    - apply includes_full in Hf. destruct Hf as (r & [] & _).
    - right. now apply L.
    - left. apply L; [apply path_tool|exact Hf].
    - apply includes_app in Hf; [|apply (ends_newline (T "include ") tool)]. destruct Hf as [Hf|Hf];
        [left; apply L; [apply path_tool|exact Hf]|right; now apply L]. }
  assert (I1 : includes tool (contents o ++ add)).
  { apply includes_app; [exact Ho|].
    destruct (includes_dec tool (contents o)) as [I1|I1]; [now left|]; destruct (includes_dec source (contents o)) as [I2|I2];
      [specialize (C3 I1 I2)|specialize (C4 I1 I2)]; subst add; right; [exact LT|].
    apply includes_app; [apply (ends_newline (T "include ") tool)|]. now left. }
  assert (I2 : includes source (contents o ++ add)).
  { apply includes_app; [exact Ho|]. destruct (includes_dec source (contents o)) as [I2|I2]; [now left|];
    destruct (includes_dec tool (contents o)) as [I3|I3];
      [specialize (C2 I3 I2)|specialize (C4 I3 I2)]; subst add; right; [exact LS|].
    apply includes_app; [apply (ends_newline (T "include ") tool)|]. now right. }
  split; [exact I1|]. split; [exact I2|]. intros f. split.
  - intros [H|[->| ->]]; [apply includes_app; [exact Ho|now left]|exact I1|exact I2].
  - intros H. apply includes_app in H; [|exact Ho]. destruct H as [H|H]; [now left|right; now apply A].
Qed.
Print Assumptions C77_manifest_partial.

(** Without the final line end the appended text continues the last line: a file
    named there may no longer be included, nor the appended one; the next run
    changes the file again. *)
Theorem C77_manifest_refuted :
  exists source, path source
    /\ (exists c, includes tool c /\ ~ includes tool (contents (setup_manifest source (Some c))))
    /\ (exists c, ~ includes tool c /\ ~ includes tool (contents (setup_manifest source (Some c)))
          /\ setup_manifest source (setup_manifest source (Some c)) <> setup_manifest source (Some c)).
Proof.
  exists (T "gcs/_version.py").
  split; [split; [discriminate|repeat constructor]|]. split.
  - exists (T "include versioneer.py"). rewrite <- !simple_includes_iff. split; vm_compute; congruence.
  - exists (T "recursive-include gcs *.py"). rewrite C77_manifest_exact. rewrite <- !simple_includes_iff.
    split; [vm_compute; congruence|]. split; [vm_compute; congruence|]. intros [H _]. vm_compute in H. discriminate H.
Qed.
Print Assumptions C77_manifest_refuted.

(** .gitattributes is left alone exactly when a line with export-subst has a
    pattern that starts with the path. *)
Theorem C77_attributes_exact source o : path source ->
  (setup_attributes source o = o <->
   exists suffix, Forall (fun x => is_space x = false) suffix /\ exported (source ++ suffix) (contents o)).
Proof.
  intros Hs. rewrite <- marks_exists by exact Hs. unfold setup_attributes.
  destruct (existsb _ _) eqn:E; [tauto|]. split; [|discriminate]. intros H. exfalso.
  apply (f_equal contents) in H. cbn [contents] in H. rewrite <- (app_nil_r (contents o)) in H at 2.
  apply app_inv_head in H. destruct source; discriminate.
Qed.
Print Assumptions C77_attributes_exact.

Lemma exported_full f s : path f -> (exported f s <-> exists sp c r, In (sp ++ f ++ c :: r) (full_lines s)
    /\ Forall (fun x => is_space x = true) sp /\ is_space c = true /\ is_word (T "export-subst") r).
Proof.
  intros [Hn _]. unfold exported. assert (N : forall sp c r, sp ++ f ++ c :: r <> []).
  { intros sp c r E. destruct sp, f; discriminate. }
  split; intros (sp & c & r & H & K); exists sp, c, r; (split; [|exact K]).
  - apply (proj1 (line_full _ s (N sp c r))), H.
  - apply (proj2 (line_full _ s (N sp c r))), H.
Qed.

Lemma exported_app f c a : path f -> ends_line c -> (exported f (c ++ a) <-> exported f c \/ exported f a).
Proof.
  intros Hf Hc. rewrite !exported_full, full_lines_app by assumption. split.
  - intros (sp & d & r & H & K). apply in_app_or in H. destruct H; [left|right]; exists sp, d, r; auto.
  - intros [(sp & d & r & H & K)|(sp & d & r & H & K)]; exists sp, d, r; (split; [apply in_or_app; auto|exact K]).
Qed.

Lemma exported_line f : path f -> exported f (f ++ T " export-subst" ++ [newline]).
Proof.
  intros Hf. apply exported_full; [exact Hf|]. exists [], " "%char, (T "export-subst").
  split; [|split; [constructor|split; [reflexivity|apply path_word; split; [discriminate|repeat constructor]]]].
  rewrite (app_assoc f (T " export-subst") [newline]), no_eol_line; [now left| |destruct f; discriminate].
  apply Forall_app. split; [apply nonspace_no_eol, Hf|repeat constructor].
Qed.

(** When the last line is complete and no pattern properly extends the path, the
    file is marked for export-subst afterwards; other marks stay. *)
Theorem C77_attributes_partial source o : path source -> ends_line (contents o) ->
  (forall suffix, Forall (fun x => is_space x = false) suffix -> exported (source ++ suffix) (contents o) -> suffix = []) ->
  exported source (contents (setup_attributes source o))
  /\ forall f, path f -> exported f (contents o) -> exported f (contents (setup_attributes source o)).
Proof.
  intros Hs Ho Hx. unfold setup_attributes. destruct (existsb _ _) eqn:E.
  - apply marks_exists in E; [|exact Hs]. destruct E as (x & Hsx & E). rewrite (Hx x Hsx E), app_nil_r in E. auto.
  - cbn [contents]. split.
    + apply exported_app; [exact Hs|exact Ho|]. right. now apply exported_line.
    + intros f Hf H. apply exported_app; auto.
Qed.
Print Assumptions C77_attributes_partial.

(** Both conditions are needed. *)
Lemma exported_marks source c : path source -> exported source c -> existsb (marks_line source) (lines (universal c)) = true.
Proof. intros Hs H. apply marks_exists; [exact Hs|]. exists []. rewrite app_nil_r. auto. Qed.

Theorem C77_attributes_refuted :
  exists source, path source
    /\ (exists c, ends_line c /\ ~ exported source (contents (setup_attributes source (Some c))))
    /\ (exists c, (forall suffix, ~ exported (source ++ suffix) c)
          /\ ~ exported source (contents (setup_attributes source (Some c)))).
Proof.
  exists (T "gcs/_version.py").
  assert (Hs : path (T "gcs/_version.py")) by (split; [discriminate|repeat constructor]).
  split; [exact Hs|]. split.
  - exists (T "gcs/_version.pyx export-subst" ++ [newline]). split; [apply (ends_newline [])|].
    intros H. apply exported_full in H; [|exact Hs]. destruct H as (sp & c & r & H & Hsp & Hc & _).
    vm_compute in H. destruct H as [H|[]]. destruct sp as [|x sp].
    + vm_compute in H. injection H as <- _. discriminate Hc.
    + injection H as <- _. inversion Hsp. discriminate.
  - exists (T "*.py text"). split.
    + intros suffix (sp & c & r & H & Hsp & Hc & Hw). apply line_full in H; [|destruct sp; discriminate].
      vm_compute in H. destruct H as [H|[]]. destruct sp; [discriminate H|]. injection H as <- _. inversion Hsp. discriminate.
    + intros H. apply exported_marks in H; [|exact Hs]. vm_compute in H. discriminate H.
Qed.
Print Assumptions C77_attributes_refuted.

(** __init__.py *)
Lemma universal_newline c r : exists p, universal (c ++ newline :: r) = p ++ newline :: universal r.
Proof.
  remember (List.length c) as n. revert c Heqn. induction n as [n IH] using lt_wf_ind. intros c ->.
  destruct c as [|x c]; [exists []; reflexivity|]. cbn [app universal].
  destruct (Ascii.eqb x carriage_return).
  - destruct c as [|y c]; [exists []; reflexivity|]. cbn [app].
    destruct (Ascii.eqb y newline).
    + destruct (IH (List.length c) ltac:(cbn; lia) c eq_refl) as [p ->]. now exists (newline :: p).
    + destruct (IH (List.length (y :: c)) ltac:(cbn; lia) (y :: c) eq_refl) as [p E]. cbn [app] in E. rewrite E. now exists (newline :: p).
  - destruct (IH (List.length c) ltac:(cbn; lia) c eq_refl) as [p ->]. now exists (x :: p).
Qed.

Lemma snippet_appended c : within init_snippet (universal (c ++ init_snippet)).
Proof.
  unfold init_snippet at 2. destruct (universal_newline c (tl init_snippet)) as [p E].
  change (newline :: unlines _) with (newline :: tl init_snippet). rewrite E.
  exists p, []. rewrite app_nil_r. f_equal.
Qed.

(** An existing __init__.py ends up with the lines that define __version__; it is
    only changed when it did not have them, by appending them once. *)
Theorem C82_init o :
  match o, setup_init o with
  | None, None => True
  | Some c, Some c' => within init_snippet (universal c')
      /\ (within init_snippet (universal c) -> c' = c)
      /\ (~ within init_snippet (universal c) -> c' = c ++ init_snippet)
      /\ setup_init (Some c') = Some c'
  | _, _ => False
  end.
Proof.
  destruct o as [c|]; [|exact I]. cbn [setup_init]. destruct (contains init_snippet (universal c)) eqn:E.
  - pose proof E as W. apply contains_iff in W. repeat split; try tauto. now rewrite E.
  - assert (N : ~ within init_snippet (universal c)) by (rewrite <- contains_iff; congruence).
    pose proof (snippet_appended c) as S. repeat split; try tauto. cbn [setup_init].
    apply contains_iff in S. now rewrite S.
Qed.
Print Assumptions C82_init.

(** So __init__.py has the lines that set __version__ and tidy up, in this order. *)
Theorem C82_sets_version o c : setup_init o = Some c ->
  exists a b, let c1 := a ++ [newline] in
  let c2 := c1 ++ T "from ._version import get_versions" ++ [newline] in
  let c3 := c2 ++ T "__version__ = get_versions()['version']" ++ [newline] in
  universal c = c3 ++ T "del get_versions" ++ newline :: b.
Proof.
  intros E. pose proof (C82_init o) as H. destruct o as [c0|]; [|discriminate E]. rewrite E in H. destruct H as [(a & b & H) _].
  exists a, b. cbn zeta. rewrite H. unfold init_snippet. cbn [unlines]. rewrite <- !app_assoc. reflexivity.
Qed.
Print Assumptions C82_sets_version.

(** Running the command again. *)
Definition opt_ends (o : option text) : Prop := ends_line (contents o).

Lemma manifest_again source o : path source -> opt_ends o \/ contents (setup_manifest source o) = contents o ->
  setup_manifest source (setup_manifest source o) = setup_manifest source o.
Proof.
  intros Hs [Ho|E].
  - apply C77_manifest_exact. destruct (C77_manifest_partial source o Hs Ho) as (H1 & H2 & _). auto.
  - apply C77_manifest_exact. destruct (manifest_cases source o) as (add & E' & E0 & _). rewrite E in E'.
    rewrite <- (app_nil_r (contents o)) in E' at 1. apply app_inv_head in E'. rewrite E.
    specialize (E0 (eq_sym E')). now apply C77_manifest_exact in E0.
Qed.

Lemma manifest_ends source o : setup_manifest source o = o \/ opt_ends (setup_manifest source o).
Proof.
  destruct (manifest_cases source o) as (add & E & E0 & _ & C1 & C2 & C3 & C4). unfold opt_ends. rewrite E.
  destruct (includes_dec tool (contents o)) as [I1|I1]; destruct (includes_dec source (contents o)) as [I2|I2];
    [specialize (C1 I1 I2)|specialize (C2 I1 I2)|specialize (C3 I1 I2)|specialize (C4 I1 I2)]; subst add.
  - left. now apply E0.
  - right. rewrite (app_assoc (T "include ")). apply ends_newline.
  - right. rewrite (app_assoc (T "include ")). apply ends_newline.
  - right. right. exists (contents o ++ (T "include " ++ tool ++ [newline]) ++ T "include " ++ source), newline.
    split; [now rewrite <- !app_assoc|reflexivity].
Qed.

Lemma attributes_ends source o : setup_attributes source o = o \/ opt_ends (setup_attributes source o).
Proof.
  unfold setup_attributes. destruct (existsb _ _); [now left|]. right. unfold opt_ends. cbn [contents].
  rewrite (app_assoc source). apply ends_newline.
Qed.

Lemma attributes_again source o : path source -> opt_ends o \/ setup_attributes source o = o ->
  setup_attributes source (setup_attributes source o) = setup_attributes source o.
Proof.
  intros Hs [Ho|E]; [|now rewrite !E]. destruct (existsb (marks_line source) (lines (universal (contents o)))) eqn:E.
  - assert (K : setup_attributes source o = o) by (unfold setup_attributes; now rewrite E). now rewrite !K.
  - apply C77_attributes_exact; [exact Hs|]. exists []. split; [constructor|]. rewrite app_nil_r.
    unfold setup_attributes. rewrite E. cbn [contents]. apply exported_app; [exact Hs|exact Ho|]. right. now apply exported_line.
Qed.

Lemma init_again o : setup_init (setup_init o) = setup_init o.
Proof. pose proof (C82_init o) as H. destruct o as [c|]; [|reflexivity]. destruct (setup_init (Some c)); [apply H|destruct H]. Qed.

(** When the last lines of MANIFEST.in and .gitattributes are complete, running
    the command again changes nothing. *)
Theorem C77_again_partial template source t : path source ->
  ends_line (contents (manifest_in t)) -> ends_line (contents (gitattributes t)) ->
  do_setup template source (do_setup template source t) = do_setup template source t.
Proof.
  intros Hs Hm Hg. unfold do_setup. cbn. rewrite init_again, manifest_again, attributes_again by auto. reflexivity.
Qed.
Print Assumptions C77_again_partial.

(** For every tree, the third run changes nothing. *)
Theorem C82_settles template source t : path source ->
  let once := do_setup template source t in
  let twice := do_setup template source once in
  do_setup template source twice = twice.
Proof.
  intros Hs. cbn zeta. unfold do_setup. cbn. rewrite !init_again. f_equal.
  - apply manifest_again; [exact Hs|]. destruct (manifest_ends source (manifest_in t)) as [E|E]; [|now left].
    right. now rewrite !E.
  - apply attributes_again; [exact Hs|]. destruct (attributes_ends source (gitattributes t)) as [E|E]; [|now left].
    right. now rewrite !E.
Qed.
Print Assumptions C82_settles.

(** The old contents are kept, and no file but _version.py is created that a
    complete tree does not need: __init__.py is never created. *)
Theorem C82_keeps template source t :
  let t' := do_setup template source t in
  version_py t' = Some template
  /\ (init_py t' = None <-> init_py t = None)
  /\ (exists a, contents (init_py t') = contents (init_py t) ++ a)
  /\ (exists a, contents (manifest_in t') = contents (manifest_in t) ++ a)
  /\ (exists a, contents (gitattributes t') = contents (gitattributes t) ++ a).
Proof.
  cbn. split; [reflexivity|]. split; [|split; [|split]].
  - destruct (init_py t) as [c|]; cbn; [destruct (contains _ _)|]; split; congruence.
  - destruct (init_py t) as [c|]; cbn; [destruct (contains _ _); cbn|exists []; reflexivity]; eauto.
    exists []. now rewrite app_nil_r.
  - destruct (manifest_cases source (manifest_in t)) as (a & E & _). now exists a.
  - unfold setup_attributes. destruct (existsb _ _); [exists []; now rewrite app_nil_r|]. cbn. eauto.
Qed.
Print Assumptions C82_keeps.

(** setup.py passes the check exactly when it has the three texts and neither of
    the old setters. *)
Theorem C82_scan c :
  scan_setup_py c = 0 <->
  within (T "import versioneer") c /\ within (T "versioneer.get_cmdclass()") c
  /\ within (T "versioneer.get_version()") c
  /\ ~ within (T "versioneer.VCS") c /\ ~ within (T "versioneer.versionfile_source") c.
Proof.
  unfold scan_setup_py. rewrite <- !in_some_line_iff by (discriminate || (repeat constructor)).
  destruct (in_some_line (T "import versioneer") c), (in_some_line (T "versioneer.get_cmdclass()") c),
    (in_some_line (T "versioneer.get_version()") c), (in_some_line (T "versioneer.VCS") c),
    (in_some_line (T "versioneer.versionfile_source") c); cbn; intuition congruence.
Qed.
Print Assumptions C82_scan.

(** The two errors of the check are counted separately. *)
Theorem C82_scan_count c :
  scan_setup_py c <= 2
  /\ (scan_setup_py c = 2 <->
      (within (T "versioneer.VCS") c \/ within (T "versioneer.versionfile_source") c)
      /\ ~ (within (T "import versioneer") c /\ within (T "versioneer.get_cmdclass()") c
            /\ within (T "versioneer.get_version()") c)).
Proof.
  unfold scan_setup_py. rewrite <- !in_some_line_iff by (discriminate || (repeat constructor)).
  destruct (in_some_line (T "import versioneer") c), (in_some_line (T "versioneer.get_cmdclass()") c),
    (in_some_line (T "versioneer.get_version()") c), (in_some_line (T "versioneer.VCS") c),
    (in_some_line (T "versioneer.versionfile_source") c); cbn; intuition (congruence || lia).
Qed.
Print Assumptions C82_scan_count.

(** A fresh tree with an empty __init__.py; the second run changes nothing. *)
Example C77_case :
  let source := T "gcs/_version.py" in
  let once := do_setup (T "x = 1") source (Tree None (Some []) None None) in
  path source
  /\ once = Tree (Some (T "x = 1")) (Some init_snippet)
              (Some (unlines ["include versioneer.py"; "include gcs/_version.py"]%string))
              (Some (unlines ["gcs/_version.py export-subst"]%string))
  /\ do_setup (T "x = 1") source once = once.
Proof. split; [split; [discriminate|repeat constructor]|]. split; vm_compute; reflexivity. Qed.

(** A setup.py that passes, and one with an old setter. *)
Example C82_case_scan :
  scan_setup_py (unlines ["import versioneer"; "setup(version=versioneer.get_version(),";
                          " cmdclass=versioneer.get_cmdclass())"]%string) = 0
  /\ scan_setup_py (unlines ["import versioneer"; "versioneer.VCS = 'git'"]%string) = 2.
Proof. split; vm_compute; reflexivity. Qed.

(** C99: versions sort as the history of the project.

    The order is that of PEP 440, by which pip decides which of two versions is
    the newer one. *)
From Coq Require Import String Ascii ZArith NArith Bool Lia DecimalString List.
From Verif Require Import Version VersionFacts PropVersion PropStyle.
Import ListNotations.
Open Scope list_scope.

(** * Specification *)

(** ** PEP 440 *)

(** VERSION = PUBLIC or PUBLIC+LOCAL. *)
Fixpoint public_part (v : text) : text :=
  match v with [] => [] | c :: r => if Ascii.eqb c "+" then [] else c :: public_part r end.
Fixpoint label_part (v : text) : option text :=
  match v with [] => None | c :: r => if Ascii.eqb c "+" then Some r else label_part r end.

(** Local versions: compared by the parts between the separators; a numeric
    part is greater than an alphanumeric one; numeric parts are compared as
    numbers, others as text, ignoring case; with a common beginning the one with
    more parts is greater.  No local version comes before any. *)
Definition is_separator (c : ascii) : bool := Ascii.eqb c "." || Ascii.eqb c "-" || Ascii.eqb c "_".
Fixpoint cut_at (f : ascii -> bool) (s : text) : list text :=
  match s with
  | [] => [[]]
  | c :: r => if f c then [] :: cut_at f r
              else match cut_at f r with w :: ws => (c :: w) :: ws | [] => [[c]] end
  end.
Definition lower_case (c : ascii) : ascii :=
  let n := nat_of_ascii c in
  if (65 <=? n)%nat && (n <=? 90)%nat then ascii_of_nat (n + 32) else c.
Fixpoint lexicographic {A} (cmp : A -> A -> comparison) (a b : list A) : comparison :=
  match a, b with
  | [], [] => Eq
  | [], _ :: _ => Lt
  | _ :: _, [] => Gt
  | x :: a', y :: b' => match cmp x y with Eq => lexicographic cmp a' b' | r => r end
  end.
Definition compare_words (a b : text) : comparison :=
  lexicographic (fun x y => N.compare (N_of_ascii (lower_case x)) (N_of_ascii (lower_case y))) a b.
Definition compare_parts (a b : text) : comparison :=
  match nat_of_text a, nat_of_text b with
  | Some n, Some m => N.compare n m
  | Some _, None => Gt
  | None, Some _ => Lt
  | None, None => compare_words a b
  end.
Definition compare_local (a b : option text) : comparison :=
  match a, b with
  | None, None => Eq
  | None, Some _ => Lt
  | Some _, None => Gt
  | Some x, Some y => lexicographic compare_parts (cut_at is_separator x) (cut_at is_separator y)
  end.

(** Public versions of the form N(.N)*[.post[N]][.dev[N]]: the release number
    decides, missing numbers count as 0; within a release .devN comes before the
    release, which comes before its post releases; .postN.devM comes before
    .postN. *)
Record public := Public { release_number : list N; post : option N; dev : option N }.
Fixpoint numbers (ws : list text) : list N * list text :=
  match ws with
  | w :: r => match nat_of_text w with
              | Some n => let '(ns, rest) := numbers r in (n :: ns, rest)
              | None => ([], ws)
              end
  | [] => ([], [])
  end.
Definition labelled (l w : text) : option N :=
  if starts_with l w then
    match skipn (length l) w with [] => Some 0%N | ds => nat_of_text ds end
  else None.
Definition read_public (s : text) : option public :=
  match numbers (split_on "." s) with
  | ([], _) => None
  | (ns, []) => Some (Public ns None None)
  | (ns, [w]) => match labelled (T "post") w, labelled (T "dev") w with
                 | Some n, _ => Some (Public ns (Some n) None)
                 | None, Some m => Some (Public ns None (Some m))
                 | None, None => None
                 end
  | (ns, [w; w']) => match labelled (T "post") w, labelled (T "dev") w' with
                     | Some n, Some m => Some (Public ns (Some n) (Some m))
                     | _, _ => None
                     end
  | _ => None
  end.
Fixpoint compare_release (a b : list N) : comparison :=
  match a, b with
  | [], [] => Eq
  | x :: a', [] => match N.compare x 0 with Eq => compare_release a' [] | r => r end
  | x :: a', y :: b' => match N.compare x y with Eq => compare_release a' b' | r => r end
  | [], y :: b' => if existsb (fun n => negb (n =? 0)%N) (y :: b') then Lt else Eq
  end.
Definition compare_post (a b : option N) : comparison :=
  match a, b with
  | None, None => Eq | None, Some _ => Lt | Some _, None => Gt | Some n, Some m => N.compare n m
  end.
Definition compare_dev (a b : option N) : comparison :=
  match a, b with
  | None, None => Eq | None, Some _ => Gt | Some _, None => Lt | Some n, Some m => N.compare n m
  end.
Definition early (p : public) : bool := match post p, dev p with None, Some _ => true | _, _ => false end.
Definition compare_public (a b : public) : comparison :=
  match compare_release (release_number a) (release_number b) with
  | Eq => match early a, early b with
          | true, false => Lt
          | false, true => Gt
          | _, _ => match compare_post (post a) (post b) with
                    | Eq => compare_dev (dev a) (dev b)
                    | r => r
                    end
          end
  | r => r
  end.

(** None: public versions that are different texts, one of which is of another
    form (epochs, alpha, beta and candidate releases). *)
Definition compare_versions (v w : text) : option comparison :=
  let decide r := match r with Eq => compare_local (label_part v) (label_part w) | _ => r end in
  if text_eqb (public_part v) (public_part w) then Some (decide Eq)
  else match read_public (public_part v), read_public (public_part w) with
       | Some a, Some b => Some (decide (compare_public a b))
       | _, _ => None
       end.
(** The order puts v before w. *)
Definition before (v w : text) : Prop := compare_versions v w = Some Lt.

Example order_of_releases : Forall (fun p => before (T (fst p)) (T (snd p)))
  [("1.0.dev456", "1.0"); ("1.0", "1.0+abc.5"); ("1.0+abc.5", "1.0+abc.7"); ("1.0+abc.7", "1.0+5");
   ("1.0+5", "1.0.post456.dev34"); ("1.0.post456.dev34", "1.0.post456"); ("1.0.post456", "1.1.dev1");
   ("1.9", "1.10"); ("1.9.9", "2"); ("1.0.post9", "1.0.post10"); ("1.0+9.gab", "1.0+10.gab")]%string.
Proof. repeat constructor. Qed.
Example equal_versions : compare_versions (T "1.0") (T "1.0.0") = Some Eq
  /\ compare_versions (T "1.0+UBUNTU-1") (T "1+ubuntu.1") = Some Eq
  /\ compare_versions (T "1.0.post") (T "1.0.post0") = Some Eq.
Proof. repeat split. Qed.

(** ** Git *)

(** Commits are numbered in the order in which they were made. *)
Definition history := nat -> list nat.   (* the parents of a commit *)
Definition in_order (h : history) : Prop := forall c p, In p (h c) -> (p < c)%nat.
(** a is b or one of the commits b was made from. *)
Inductive contains (h : history) : nat -> nat -> Prop :=
| contains_self c : contains h c c
| contains_parent a p c : In p (h c) -> contains h p a -> contains h c a.
(** The number of commits of [head] that are not in [base]: the number in the
    output of git describe; and the number of all commits of [head]: the output
    of git rev-list --count. *)
Definition commits_since (h : history) (base head : nat) (n : N) : Prop :=
  exists l, NoDup l /\ (forall c, In c l <-> contains h head c /\ ~ contains h base c) /\ N.of_nat (length l) = n.
Definition commits_of (h : history) (head : nat) (n : N) : Prop :=
  exists l, NoDup l /\ (forall c, In c l <-> contains h head c) /\ N.of_nat (length l) = n.

(** What git prints in a checkout n commits after the tag "v" ++ [tag], and in
    one without a tag. *)
Definition prints (describe : text) (g : git) : Prop :=
  exists gdir head day time zone b1 b2 b3 n b4,
    g = Git (Some gdir) (Some (describe ++ b1)) (Some (head ++ b2)) (Some (nat_text n ++ b3))
            (Some ((day ++ T " " ++ time ++ T " " ++ zone) ++ b4))
    /\ word head /\ word day /\ word time /\ word zone /\ blank b1 /\ blank b2 /\ blank b3 /\ blank b4.
Definition at_tag (tag : text) (n : N) (hex : text) (dirty : bool) (g : git) : Prop :=
  tag <> [] /\ ~ In newline tag /\ hex_name hex /\ prints (describe_output (T "v" ++ tag) n hex dirty) g.
Definition without_tag (n : N) (head : text) (dirty : bool) (g : git) : Prop :=
  hex_name head /\ exists hex gdir day time zone b1 b2 b3 b4,
    g = Git (Some gdir) (Some ((hex ++ dirty_suffix dirty) ++ b1)) (Some (head ++ b2)) (Some (nat_text n ++ b3))
            (Some ((day ++ T " " ++ time ++ T " " ++ zone) ++ b4))
    /\ hex_name hex /\ word day /\ word time /\ word zone /\ blank b1 /\ blank b2 /\ blank b3 /\ blank b4.
(** gcs.__version__ in a checkout. *)
Definition version_is (g : git) (v : text) : Prop :=
  forall file, exists r, get_versions repo_keywords (Some file) g = VOk r /\ v_version r = v.

(** * Facts *)
Lemma public_part_app t s : ~ In "+"%char t -> public_part (t ++ s) = t ++ public_part s.
Proof.
  induction t as [|c t IH]; intros H; [reflexivity|]. cbn [app public_part].
  destruct (Ascii.eqb_spec c "+") as [->|N]; [exfalso; apply H; now left|].
  rewrite IH; [reflexivity|]. intros I. apply H. now right.
Qed.
Lemma label_part_app t s : ~ In "+"%char t -> label_part (t ++ s) = label_part s.
Proof.
  induction t as [|c t IH]; intros H; [reflexivity|]. cbn [app label_part].
  destruct (Ascii.eqb_spec c "+") as [->|N]; [exfalso; apply H; now left|].
  apply IH. intros I. apply H. now right.
Qed.
Lemma split_at_plus t : In "+"%char t -> exists p l, t = p ++ "+"%char :: l /\ ~ In "+"%char p.
Proof.
  induction t as [|c t IH]; [intros []|]. intros H. destruct (Ascii.eqb_spec c "+") as [->|N].
  - exists [], t. split; [reflexivity|intros []].
  - destruct H as [->|H]; [congruence|]. destruct (IH H) as (p & l & -> & Hp).
    exists (c :: p), l. split; [reflexivity|]. intros [E|E]; [congruence|contradiction].
Qed.
Lemma cut_at_nonempty f s : cut_at f s <> [].
Proof. destruct s as [|c s]; cbn [cut_at]; [discriminate|]. destruct (f c); [discriminate|]. now destruct (cut_at f s). Qed.
Lemma cut_at_app f c a b : f c = true -> cut_at f (a ++ c :: b) = cut_at f a ++ cut_at f b.
Proof.
  intros Hc. induction a as [|x a IH]; cbn [app cut_at].
  - now rewrite Hc.
  - rewrite IH. destruct (f x); [reflexivity|]. pose proof (cut_at_nonempty f a).
    destruct (cut_at f a); [congruence|reflexivity].
Qed.
Lemma cut_at_none f s : Forall (fun c => f c = false) s -> cut_at f s = [s].
Proof. induction 1 as [|c s Hc H IH]; [reflexivity|]. cbn [cut_at]. now rewrite Hc, IH. Qed.
Lemma lexicographic_refl {A} (cmp : A -> A -> comparison) l : (forall x, cmp x x = Eq) -> lexicographic cmp l l = Eq.
Proof. intros H. induction l; cbn [lexicographic]; [reflexivity|]. now rewrite H. Qed.
Lemma compare_words_refl w : compare_words w w = Eq.
Proof. apply lexicographic_refl. intros x. apply N.compare_refl. Qed.
Lemma compare_parts_refl w : compare_parts w w = Eq.
Proof. unfold compare_parts. destruct (nat_of_text w); [apply N.compare_refl|apply compare_words_refl]. Qed.
Lemma lexicographic_app {A} (cmp : A -> A -> comparison) l a b : (forall x, cmp x x = Eq) ->
  lexicographic cmp (l ++ a) (l ++ b) = lexicographic cmp a b.
Proof. intros H. induction l; cbn [app lexicographic]; [reflexivity|]. now rewrite H. Qed.

Lemma digit_no_separator c : is_digit c = true -> is_separator c = false.
Proof.
  unfold is_separator. intros H.
  destruct (Ascii.eqb_spec c "."); [subst; discriminate|].
  destruct (Ascii.eqb_spec c "-"); [subst; discriminate|].
  destruct (Ascii.eqb_spec c "_"); [subst; discriminate|reflexivity].
Qed.
Lemma hex_no_separator c : is_hex c = true -> is_separator c = false.
Proof.
  unfold is_separator. intros H.
  destruct (Ascii.eqb_spec c "."); [subst; discriminate|].
  destruct (Ascii.eqb_spec c "-"); [subst; discriminate|].
  destruct (Ascii.eqb_spec c "_"); [subst; discriminate|reflexivity].
Qed.
Definition away_label (n : N) (hex : text) (dirty : bool) : text :=
  nat_text n ++ T ".g" ++ hex ++ (if dirty then T ".dirty" else []).
Lemma away_label_parts n hex (dirty : bool) : Forall (fun c => is_hex c = true) hex ->
  cut_at is_separator (away_label n hex dirty)
  = nat_text n :: ("g"%char :: hex) :: if dirty then [T "dirty"] else [].
Proof.
  intros Hh. unfold away_label. change (T ".g" ++ hex ++ (if dirty then T ".dirty" else []))
    with ("."%char :: "g"%char :: hex ++ (if dirty then T ".dirty" else [])).
  rewrite cut_at_app by reflexivity.
  rewrite (cut_at_none _ (nat_text n)).
  2:{ eapply Forall_impl; [|apply nat_text_digits]. apply digit_no_separator. }
  assert (Hg : Forall (fun c => is_separator c = false) ("g"%char :: hex)).
  { constructor; [reflexivity|]. eapply Forall_impl; [|exact Hh]. apply hex_no_separator. }
  cbn [app]. destruct dirty.
  - change ("g"%char :: hex ++ T ".dirty") with (("g"%char :: hex) ++ "."%char :: T "dirty").
    rewrite cut_at_app by reflexivity. now rewrite (cut_at_none _ ("g"%char :: hex)).
  - rewrite app_nil_r. now rewrite (cut_at_none _ ("g"%char :: hex)).
Qed.
Lemma compare_parts_number n m : compare_parts (nat_text n) (nat_text m) = N.compare n m.
Proof. unfold compare_parts. now rewrite !nat_text_read. Qed.

(** The order of labels DISTANCE.gHEX[.dirty]. *)
Lemma away_order n m hex hex' (d d' : bool) :
  Forall (fun c => is_hex c = true) hex -> Forall (fun c => is_hex c = true) hex' ->
  (n < m)%N \/ (n = m /\ hex = hex' /\ d = false /\ d' = true) ->
  lexicographic compare_parts (cut_at is_separator (away_label n hex d)) (cut_at is_separator (away_label m hex' d')) = Lt.
Proof.
  intros H H' [L|(-> & -> & -> & ->)]; rewrite !away_label_parts by assumption; cbn [lexicographic]; rewrite compare_parts_number.
  - apply N.compare_lt_iff in L. now rewrite L.
  - rewrite N.compare_refl. cbn [lexicographic]. now rewrite compare_parts_refl.
Qed.

Lemma checkout_version_shape tag n hex dirty : checkout_version tag n hex dirty
  = if (n =? 0)%N && negb dirty then tag
    else tag ++ (if contains_plus tag then T "." else T "+") ++ away_label n hex dirty.
Proof. reflexivity. Qed.
Lemma contains_plus_iff t : contains_plus t = true <-> In "+"%char t.
Proof. apply has_char_iff. Qed.

Lemma text_eqb_same t : text_eqb t t = true.
Proof. now apply text_eqb_eq. Qed.

(** Versions of one tag. *)
Lemma same_tag_before tag n m hex hex' d d' : hex_name hex -> hex_name hex' ->
  (n < m)%N \/ (n = m /\ hex = hex' /\ d = false /\ d' = true) ->
  before (checkout_version tag n hex d) (checkout_version tag m hex' d').
Proof.
  intros [_ Hh] [_ Hh'] L. rewrite !checkout_version_shape.
  replace ((m =? 0)%N && negb d') with false.
  2:{ destruct L as [L|(_ & _ & _ & ->)]; [|now rewrite andb_false_r]. destruct (N.eqb_spec m 0); [lia|reflexivity]. }
  pose proof (away_order n m hex hex' d d' Hh Hh' L) as O.
  unfold before, compare_versions.
  destruct (contains_plus tag) eqn:Ep.
  - apply contains_plus_iff, split_at_plus in Ep. destruct Ep as (p & l & -> & Hp).
    rewrite <- !app_assoc. cbn [app].
    assert (P : forall x, public_part (p ++ "+"%char :: x) = p).
    { intros x. rewrite public_part_app by exact Hp. cbn. apply app_nil_r. }
    assert (Q : forall x, label_part (p ++ "+"%char :: x) = Some x).
    { intros x. now rewrite label_part_app by exact Hp. }
    destruct ((n =? 0)%N && negb d).
    + rewrite !P, !Q, text_eqb_same. cbn [compare_local]. f_equal.
      change (T "." ++ away_label m hex' d') with ("."%char :: away_label m hex' d').
      rewrite cut_at_app by reflexivity. rewrite <- (app_nil_r (cut_at is_separator l)) at 1.
      rewrite lexicographic_app by apply compare_parts_refl.
      pose proof (cut_at_nonempty is_separator (away_label m hex' d')).
      destruct (cut_at is_separator (away_label m hex' d')); [congruence|reflexivity].
    + rewrite !P, !Q, text_eqb_same. cbn [compare_local]. f_equal.
      change (T "." ++ away_label m hex' d') with ("."%char :: away_label m hex' d').
      change (T "." ++ away_label n hex d) with ("."%char :: away_label n hex d).
      rewrite !cut_at_app by reflexivity. rewrite lexicographic_app by apply compare_parts_refl. exact O.
  - assert (Hp : ~ In "+"%char tag) by (rewrite <- contains_plus_iff; congruence).
    change (T "+" ++ away_label m hex' d') with ("+"%char :: away_label m hex' d').
    change (T "+" ++ away_label n hex d) with ("+"%char :: away_label n hex d).
    assert (P : forall x, public_part (tag ++ "+"%char :: x) = tag).
    { intros x. rewrite public_part_app by exact Hp. cbn. apply app_nil_r. }
    assert (Q : forall x, label_part (tag ++ "+"%char :: x) = Some x).
    { intros x. now rewrite label_part_app by exact Hp. }
    destruct ((n =? 0)%N && negb d).
    + assert (P0 : public_part tag = tag).
      { rewrite <- (app_nil_r tag) at 1. rewrite public_part_app by exact Hp. apply app_nil_r. }
      assert (Q0 : label_part tag = None).
      { rewrite <- (app_nil_r tag). now rewrite label_part_app by exact Hp. }
      rewrite P, Q, P0, Q0, text_eqb_same. reflexivity.
    + rewrite !P, !Q, text_eqb_same. cbn [compare_local]. now rewrite O.
Qed.

(** ** Histories *)
Lemma contains_trans h a b c : contains h a b -> contains h b c -> contains h a c.
Proof. intros H. revert c. induction H as [|x p y Hp H IH]; intros d Hc; [exact Hc|]. eapply contains_parent; [exact Hp|auto]. Qed.
Lemma contains_le h a b : in_order h -> contains h a b -> (b <= a)%nat.
Proof. intros O H. induction H as [|x p y Hp H IH]; [lia|]. apply O in Hp. lia. Qed.
Lemma contains_antisym h a b : in_order h -> contains h a b -> contains h b a -> a = b.
Proof. intros O H1 H2. apply contains_le in H1, H2; auto. lia. Qed.

Lemma longer {A} (l l' : list A) x : NoDup l -> NoDup l' -> incl l l' -> In x l' -> ~ In x l -> (length l < length l')%nat.
Proof.
  intros N N' I Hx Hn. apply (NoDup_incl_length (l := x :: l) (l' := l')).
  - now constructor.
  - intros y [<-|Hy]; auto.
Qed.

Lemma since_grows h base old new n m : in_order h -> contains h new old -> old <> new ->
  contains h new base -> contains h old base ->
  commits_since h base old n -> commits_since h base new m -> (n < m)%N.
Proof.
  intros O C Ne _ Cb (l & Nl & Il & <-) (l' & Nl' & Il' & <-).
  assert (L : (length l < length l')%nat).
  { apply (longer l l' new); auto.
    - intros c Hc. apply Il in Hc. apply Il'. destruct Hc as [H1 H2]. split; [|exact H2]. eapply contains_trans; eauto.
    - apply Il'. split; [constructor|]. intros B. apply Ne. apply (contains_antisym h); auto.
      eapply contains_trans; eauto.
    - intros H. apply Il in H. destruct H as [H _]. apply Ne. now apply (contains_antisym h). }
  lia.
Qed.
Lemma count_grows h old new n m : in_order h -> contains h new old -> old <> new ->
  commits_of h old n -> commits_of h new m -> (n < m)%N.
Proof.
  intros O C Ne (l & Nl & Il & <-) (l' & Nl' & Il' & <-).
  assert (L : (length l < length l')%nat).
  { apply (longer l l' new); auto.
    - intros c Hc. apply Il'. apply Il in Hc. eapply contains_trans; eauto.
    - apply Il'. constructor.
    - intros H. apply Il in H. apply Ne. now apply (contains_antisym h). }
  lia.
Qed.

(** ** The version of a checkout *)
Lemma tagged_version tag n hex dirty g : at_tag tag n hex dirty g -> version_is g (checkout_version tag n hex dirty).
Proof.
  intros (Ht & Hnl & Hh & gdir & head & day & time & zone & b1 & b2 & b3 & k & b4 & -> & W1 & W2 & W3 & W4 & B1 & B2 & B3 & B4) file.
  pose proof (C64_checkout file tag n hex dirty head (Some (nat_text k)) day time zone gdir b1 b2 b3 b4
                Ht Hnl Hh W1 W2 W3 W4 B1 B2 B4) as E.
  eexists. split; [exact E|reflexivity].
Qed.
Definition untagged_version (n : N) (head : text) (dirty : bool) : text :=
  T "0+untagged." ++ away_label n (firstn 7 head) dirty.
Lemma untagged_is n head dirty g : without_tag n head dirty g -> version_is g (untagged_version n head dirty).
Proof.
  intros (W1 & hex & gdir & day & time & zone & b1 & b2 & b3 & b4 & -> & Hh & W2 & W3 & W4 & B1 & B2 & B3 & B4) file.
  assert (Ww : word head).
  { destruct W1 as [Hne Hx]. split; [exact Hne|]. eapply Forall_impl; [|exact Hx]. apply hex_not_space. }
  pose proof (C64_untagged file n hex dirty head day time zone gdir b1 b2 b3 b4 Hh Ww W2 W3 W4 B1 B2 B3 B4) as E.
  eexists. split; [exact E|]. reflexivity.
Qed.
Lemma firstn_hex k head : Forall (fun c => is_hex c = true) head -> Forall (fun c => is_hex c = true) (firstn k head).
Proof. intros H. rewrite <- (firstn_skipn k head) in H. now apply Forall_app in H. Qed.
Lemma version_unique g v w : version_is g v -> version_is g w -> v = w.
Proof. intros H1 H2. destruct (H1 []) as (r & E & <-), (H2 []) as (r' & E' & <-). congruence. Qed.

Lemma untagged_before n m head head' d d' : hex_name head -> hex_name head' ->
  (n < m)%N \/ (n = m /\ head = head' /\ d = false /\ d' = true) ->
  before (untagged_version n head d) (untagged_version m head' d').
Proof.
  intros [_ Hh] [_ Hh'] L. apply (firstn_hex 7) in Hh, Hh'.
  assert (O : lexicographic compare_parts (cut_at is_separator (away_label n (firstn 7 head) d))
                (cut_at is_separator (away_label m (firstn 7 head') d')) = Lt).
  { apply away_order; auto. destruct L as [L|(-> & -> & -> & ->)]; auto. }
  unfold before, compare_versions, untagged_version.
  assert (P : forall x, public_part (T "0+untagged." ++ x) = T "0") by reflexivity.
  assert (Q : forall x, label_part (T "0+untagged." ++ x) = Some (T "untagged" ++ "."%char :: x)) by reflexivity.
  rewrite !P, !Q, text_eqb_same. cbn [compare_local]. f_equal. rewrite !cut_at_app by reflexivity.
  rewrite lexicographic_app by apply compare_parts_refl. exact O.
Qed.

(** ** Releases *)

(** Tags that are release numbers: N(.N)*. *)
Definition release_tag (t : text) (ns : list N) : Prop :=
  Forall2 (fun w n => nat_of_text w = Some n) (split_on "." t) ns.

Lemma digits_of_number w n : nat_of_text w = Some n -> Forall (fun c => is_digit c = true) w.
Proof.
  unfold nat_of_text. destruct w as [|c0 w0]; [discriminate|]. generalize (c0 :: w0) as s. clear c0 w0. intros s.
  destruct (NilEmpty.uint_of_string (string_of_list_ascii s)) as [u|] eqn:E; [|discriminate]. intros _.
  apply NilEmpty.sus in E. rewrite <- (list_ascii_of_string_of_list_ascii s), <- E. apply string_of_uint_digits.
Qed.
Lemma split_on_dot c a b : split_on c (a ++ c :: b) = split_on c a ++ split_on c b.
Proof.
  induction a as [|x a IH]; cbn [app split_on].
  - now rewrite Ascii.eqb_refl.
  - rewrite IH. destruct (Ascii.eqb x c); [reflexivity|].
    destruct (split_on c a) eqn:E; [|reflexivity]. exfalso. destruct a as [|y a]; [discriminate|]. cbn [split_on] in E.
    destruct (Ascii.eqb y c); [discriminate|]. now destruct (split_on c a).
Qed.
Lemma split_on_in c x s : In x s -> x <> c -> exists w, In w (split_on c s) /\ In x w.
Proof.
  induction s as [|y s IH]; [intros []|]. intros H N. cbn [split_on].
  destruct (Ascii.eqb_spec y c) as [->|Ny].
  - destruct H as [->|H]; [congruence|]. destruct (IH H N) as (w & Hw & Hx). exists w. split; [now right|exact Hx].
  - destruct H as [->|H].
    + destruct (split_on c s) as [|w ws]; [exists [x]|exists (x :: w)]; split; now left.
    + destruct (IH H N) as (w & Hw & Hx). destruct (split_on c s) as [|w0 ws]; [destruct Hw|].
      destruct Hw as [->|Hw]; [exists (y :: w); split; [now left|now right]|]. exists w. split; [now right|exact Hx].
Qed.
Lemma release_no_plus t ns : release_tag t ns -> ~ In "+"%char t.
Proof.
  intros H I. destruct (split_on_in "." _ _ I ltac:(discriminate)) as (w & Hw & Hx).
  unfold release_tag in H. remember (split_on "." t) as ws eqn:E. clear E I.
  induction H as [|w0 n ws' ns' Hn H IH]; [destruct Hw|]. destruct Hw as [->|Hw]; [|auto].
  apply digits_of_number in Hn. rewrite Forall_forall in Hn. apply Hn in Hx. discriminate.
Qed.
Lemma release_nonempty t ns : release_tag t ns -> t <> [] /\ ns <> [].
Proof.
  intros H. split.
  - intros ->. inversion H as [|? ? ? ? E]. discriminate E.
  - intros ->. inversion H as [E|]. destruct t as [|c t]; [discriminate|]. cbn [split_on] in E.
    destruct (Ascii.eqb c "."); [discriminate|]. now destruct (split_on "." t).
Qed.
Lemma numbers_app ws ns rest : Forall2 (fun w n => nat_of_text w = Some n) ws ns ->
  match rest with [] => True | w :: _ => nat_of_text w = None end -> numbers (ws ++ rest) = (ns, rest).
Proof.
  intros H Hr. induction H as [|w n ws ns Hn H IH]; cbn [app numbers].
  - destruct rest as [|w r]; [reflexivity|]. cbn [numbers]. now rewrite Hr.
  - now rewrite Hn, IH.
Qed.
Lemma read_release t ns : release_tag t ns -> read_public t = Some (Public ns None None).
Proof.
  intros H. pose proof (release_nonempty _ _ H) as [_ Hne]. unfold read_public.
  rewrite <- (app_nil_r (split_on "." t)), (numbers_app _ ns []) by (exact H || exact I).
  destruct ns; [congruence|reflexivity].
Qed.
Lemma number_dot n : ~ In "."%char (nat_text n).
Proof. apply digits_no_dot, nat_text_digits. Qed.
Lemma labelled_number l n : labelled l (l ++ nat_text n) = Some n.
Proof.
  unfold labelled. rewrite starts_with_app, skipn_app_len. pose proof (nat_text_nonempty n) as H.
  destruct (nat_text n) eqn:E; [congruence|]. rewrite <- E. apply nat_text_read.
Qed.
Lemma letter_no_number c w : is_digit c = false -> nat_of_text (c :: w) = None.
Proof.
  intros H. destruct (nat_of_text (c :: w)) eqn:E; [|reflexivity]. apply digits_of_number in E. inversion E. congruence.
Qed.
Lemma read_post t ns n : release_tag t ns -> read_public (t ++ T ".post" ++ nat_text n) = Some (Public ns (Some n) None).
Proof.
  intros H. pose proof (release_nonempty _ _ H) as [_ Hne]. unfold read_public.
  change (t ++ T ".post" ++ nat_text n) with (t ++ "."%char :: (T "post" ++ nat_text n)). rewrite split_on_dot.
  rewrite (split_on_last "." (T "post" ++ nat_text n)).
  2:{ rewrite in_app_iff. intros [I|I]; [cbn in I; intuition discriminate|]. now apply number_dot in I. }
  rewrite (numbers_app _ ns [T "post" ++ nat_text n]); [|exact H|now apply letter_no_number].
  rewrite labelled_number. destruct ns; [congruence|reflexivity].
Qed.
Lemma read_post_dev t ns n m : release_tag t ns ->
  read_public (t ++ T ".post" ++ nat_text n ++ T ".dev" ++ nat_text m) = Some (Public ns (Some n) (Some m)).
Proof.
  intros H. pose proof (release_nonempty _ _ H) as [_ Hne]. unfold read_public.
  change (t ++ T ".post" ++ nat_text n ++ T ".dev" ++ nat_text m)
    with (t ++ "."%char :: (T "post" ++ nat_text n ++ "."%char :: (T "dev" ++ nat_text m))).
  rewrite split_on_dot, (app_assoc (T "post")), split_on_dot.
  rewrite (split_on_last "." (T "post" ++ nat_text n)).
  2:{ rewrite in_app_iff. intros [I|I]; [cbn in I; intuition discriminate|]. now apply number_dot in I. }
  rewrite (split_on_last "." (T "dev" ++ nat_text m)).
  2:{ rewrite in_app_iff. intros [I|I]; [cbn in I; intuition discriminate|]. now apply number_dot in I. }
  cbn [app]. rewrite (numbers_app _ ns [T "post" ++ nat_text n; T "dev" ++ nat_text m]); [|exact H|now apply letter_no_number].
  rewrite !labelled_number. destruct ns; [congruence|reflexivity].
Qed.
Lemma read_post_only_dev t ns m : release_tag t ns ->
  read_public (t ++ T ".post.dev" ++ nat_text m) = Some (Public ns (Some 0%N) (Some m)).
Proof.
  intros H. pose proof (release_nonempty _ _ H) as [_ Hne]. unfold read_public.
  change (t ++ T ".post.dev" ++ nat_text m)
    with (t ++ "."%char :: (T "post" ++ "."%char :: (T "dev" ++ nat_text m))).
  rewrite !split_on_dot.
  rewrite (split_on_last "." (T "post")) by (cbn; intuition discriminate).
  rewrite (split_on_last "." (T "dev" ++ nat_text m)).
  2:{ rewrite in_app_iff. intros [I|I]; [cbn in I; intuition discriminate|]. now apply number_dot in I. }
  cbn [app]. rewrite (numbers_app _ ns [T "post"; T "dev" ++ nat_text m]); [|exact H|now apply letter_no_number].
  rewrite labelled_number. destruct ns; [congruence|reflexivity].
Qed.

Lemma compare_release_refl ns : compare_release ns ns = Eq.
Proof. induction ns; cbn [compare_release]; [reflexivity|]. now rewrite N.compare_refl. Qed.
Lemma compare_public_refl p : compare_public p p = Eq.
Proof.
  unfold compare_public. rewrite compare_release_refl.
  assert (P : compare_post (post p) (post p) = Eq) by (destruct (post p); [apply N.compare_refl|reflexivity]).
  assert (D : compare_dev (dev p) (dev p) = Eq) by (destruct (dev p); [apply N.compare_refl|reflexivity]).
  rewrite P, D. now destruct (early p).
Qed.
Lemma before_public v w a b : read_public (public_part v) = Some a -> read_public (public_part w) = Some b ->
  compare_public a b = Lt -> before v w.
Proof.
  intros Ha Hb L. unfold before, compare_versions.
  destruct (text_eqb (public_part v) (public_part w)) eqn:E.
  - apply text_eqb_eq in E. rewrite E, Hb in Ha. injection Ha as ->. rewrite compare_public_refl in L. discriminate.
  - now rewrite Ha, Hb, L.
Qed.
Lemma public_checkout t ns n hex d : release_tag t ns -> public_part (checkout_version t n hex d) = t.
Proof.
  intros H. apply release_no_plus in H. rewrite checkout_version_shape.
  destruct ((n =? 0)%N && negb d).
  - rewrite <- (app_nil_r t) at 1. rewrite public_part_app by exact H. apply app_nil_r.
  - rewrite public_part_app by exact H. unfold contains_plus.
    replace (existsb (Ascii.eqb "+") t) with false by (symmetry; now apply has_char_false).
    cbn. apply app_nil_r.
Qed.

(** ** The other styles *)
Definition stage (s : style) (ns : list N) (n : N) (dirty : bool) : public :=
  match s with
  | Pep440Pre => if (n =? 0)%N then Public ns None None else Public ns (Some 0%N) (Some n)
  | Pep440Post | Pep440Old =>
      if (n =? 0)%N && negb dirty then Public ns None None
      else Public ns (Some n) (if dirty then Some 0%N else None)
  | _ => Public ns None None
  end.
Lemma public_plain t : ~ In "+"%char t -> public_part t = t.
Proof. intros H. rewrite <- (app_nil_r t) at 1. rewrite public_part_app by exact H. apply app_nil_r. Qed.
Lemma release_cons t ns : release_tag t ns -> exists c r, t = c :: r.
Proof. intros H. apply release_nonempty in H. destruct t as [|c r]; [tauto|eauto]. Qed.
Lemma no_plus_number n : ~ In "+"%char (nat_text n).
Proof. intros I. pose proof (nat_text_digits n) as D. rewrite Forall_forall in D. apply D in I. discriminate. Qed.
Lemma style_stage s t ns n short long dirty date : s = Pep440Pre \/ s = Pep440Post \/ s = Pep440Old -> release_tag t ns ->
  exists v, render_style (Pieces (Some t) (Z.of_N n) short long dirty date) (name s) = VOk v
    /\ read_public (public_part v) = Some (stage s ns n dirty).
Proof.
  intros Hs H. pose proof (release_no_plus _ _ H) as Hp.
  assert (Zn : (Z.of_N n =? 0)%Z = (n =? 0)%N) by (destruct (N.eqb_spec n 0); lia).
  assert (Ht : forall l d s0 s1, tagged (Pieces (Some t) l s0 s1 d date) = Some t).
  { intros. unfold tagged. cbn [p_tag]. destruct (release_cons _ _ H) as (c & r & ->). reflexivity. }
  assert (Np : forall x, ~ In "+"%char x -> ~ In "+"%char (t ++ T ".post" ++ x)).
  { intros x Hx. rewrite !in_app_iff. intros [I|[I|I]]; [tauto| |tauto]. cbn in I. intuition discriminate. }
  assert (Hs' : forall d : bool, (negb (n =? 0)%N || d)%bool = negb ((n =? 0)%N && negb d)).
  { intros d. now destruct (n =? 0)%N, d. }
  assert (Rd : forall x, read_public (public_part (t ++ T ".post" ++ nat_text n ++ when dirty ".dev0" ++ x))
                         = read_public (t ++ T ".post" ++ nat_text n ++ when dirty ".dev0" ++ public_part x)).
  { intros x. rewrite !app_assoc. rewrite public_part_app; [reflexivity|]. rewrite <- !app_assoc. apply Np.
    rewrite in_app_iff. intros [I|I]; [now apply no_plus_number in I|]. destruct dirty; cbn in I; intuition discriminate. }
  assert (Rp : read_public (t ++ T ".post" ++ nat_text n ++ when dirty ".dev0")
               = Some (Public ns (Some n) (if dirty then Some 0%N else None))).
  { destruct dirty; cbn [when].
    - change (T ".dev0") with (T ".dev" ++ nat_text 0). now apply read_post_dev.
    - rewrite app_nil_r. now apply read_post. }
  destruct Hs as [E|[E|E]]; subst s; eexists; (split; [reflexivity|]); cbn [stage].
  - unfold render_pep440_pre. rewrite Ht. cbn [p_distance]. rewrite Zn. destruct (n =? 0)%N; cbn [negb].
    + rewrite public_plain by exact Hp. now apply read_release.
    + rewrite int_text_of_N. change (T ".post.dev" ++ nat_text n) with (T ".post" ++ (T ".dev" ++ nat_text n)).
      rewrite public_plain; [now apply read_post_only_dev|]. apply Np. rewrite in_app_iff.
      intros [I|I]; [cbn in I; intuition discriminate|now apply no_plus_number in I].
  - unfold render_pep440_post. rewrite Ht. unfold away. cbn [p_distance p_dirty p_short]. rewrite Zn, int_text_of_N, Hs'.
    destruct ((n =? 0)%N && negb dirty); cbn [negb].
    + rewrite public_plain by exact Hp. now apply read_release.
    + rewrite Rd. unfold plus_or_dot. replace (has_char "+" t) with false by (symmetry; now apply has_char_false).
      cbn [T list_ascii_of_string app public_part Ascii.eqb Bool.eqb]. rewrite app_nil_r. exact Rp.
  - unfold render_pep440_old. rewrite Ht. unfold away. cbn [p_distance p_dirty]. rewrite Zn, int_text_of_N, Hs'.
    destruct ((n =? 0)%N && negb dirty); cbn [negb].
    + rewrite public_plain by exact Hp. now apply read_release.
    + pose proof (Rd []) as R. rewrite !app_nil_r in R. rewrite R. exact Rp.
Qed.
Lemma stage_grows s ns n m d d' : s = Pep440Pre \/ s = Pep440Post \/ s = Pep440Old -> (n < m)%N ->
  compare_public (stage s ns n d) (stage s ns m d') = Lt.
Proof.
  intros Hs L. assert (Em : (m =? 0)%N = false) by (apply N.eqb_neq; lia).
  apply N.compare_lt_iff in L as C. unfold compare_public.
  destruct Hs as [E|[E|E]]; subst s; cbn [stage]; rewrite Em; cbn [andb].
  - destruct (n =? 0)%N; cbn [release_number early post dev compare_post compare_dev]; rewrite compare_release_refl; [reflexivity|].
    rewrite N.compare_refl. exact C.
  - destruct ((n =? 0)%N && negb d); cbn [release_number early post dev compare_post]; rewrite compare_release_refl;
      [destruct d'; reflexivity|]. rewrite C. now destruct d, d'.
  - destruct ((n =? 0)%N && negb d); cbn [release_number early post dev compare_post]; rewrite compare_release_refl;
      [destruct d'; reflexivity|]. rewrite C. now destruct d, d'.
Qed.

(** * C99 *)

(** A later commit has a newer version than the commits it is made from, with
    or without uncommitted changes in either checkout. *)
Theorem C99_later_commit : forall h base old new n m tag hex hex' d d' g g',
  in_order h -> contains h old base -> contains h new old -> old <> new ->
  commits_since h base old n -> commits_since h base new m ->
  at_tag tag n hex d g -> at_tag tag m hex' d' g' ->
  exists v w, version_is g v /\ version_is g' w /\ before v w.
Proof.
  intros h base old new n m tag hex hex' d d' g g' O Cb C Ne Sn Sm A A'.
  eexists _, _. split; [exact (tagged_version _ _ _ _ _ A)|]. split; [exact (tagged_version _ _ _ _ _ A')|].
  destruct A as (_ & _ & Hh & _), A' as (_ & _ & Hh' & _). apply same_tag_before; auto. left.
  apply (since_grows h base old new); auto. eapply contains_trans; eauto.
Qed.

(** Before the first tag likewise, and the first release is newer. *)
Theorem C99_untagged : forall h old new n m head head' d d' g g',
  in_order h -> contains h new old -> old <> new ->
  commits_of h old n -> commits_of h new m ->
  without_tag n head d g -> without_tag m head' d' g' ->
  exists v w, version_is g v /\ version_is g' w /\ before v w.
Proof.
  intros h old new n m head head' d d' g g' O C Ne Sn Sm A A'.
  eexists _, _. split; [exact (untagged_is _ _ _ _ A)|]. split; [exact (untagged_is _ _ _ _ A')|].
  destruct A as (Hh & _), A' as (Hh' & _). apply untagged_before; auto. left.
  apply (count_grows h old new); auto.
Qed.

(** Uncommitted changes make the version newer than that of the commit. *)
Theorem C99_local_changes : forall n hex g g',
  (forall tag, at_tag tag n hex false g -> at_tag tag n hex true g' ->
     exists v w, version_is g v /\ version_is g' w /\ before v w)
  /\ (forall head, without_tag n head false g -> without_tag n head true g' ->
     exists v w, version_is g v /\ version_is g' w /\ before v w).
Proof.
  intros n hex g g'. split.
  - intros tag A A'. eexists _, _. split; [exact (tagged_version _ _ _ _ _ A)|]. split; [exact (tagged_version _ _ _ _ _ A')|].
    destruct A as (_ & _ & Hh & _). apply same_tag_before; auto.
  - intros head A A'. eexists _, _. split; [exact (untagged_is _ _ _ _ A)|]. split; [exact (untagged_is _ _ _ _ A')|].
    destruct A as (Hh & _). apply untagged_before; auto.
Qed.

(** Every version of the next release is newer than every version of this one,
    and than every version before the first tag. *)
Theorem C99_next_release : forall n m hex d d' g g' t' ns',
  release_tag t' ns' -> at_tag t' m hex d' g' ->
  (forall t ns hex0, release_tag t ns -> compare_release ns ns' = Lt -> at_tag t n hex0 d g ->
     exists v w, version_is g v /\ version_is g' w /\ before v w)
  /\ (forall head, Exists (fun k => k <> 0%N) ns' -> without_tag n head d g ->
     exists v w, version_is g v /\ version_is g' w /\ before v w).
Proof.
  intros n m hex d d' g g' t' ns' R' A'. split.
  - intros t ns hex0 R L A. eexists _, _. split; [exact (tagged_version _ _ _ _ _ A)|]. split; [exact (tagged_version _ _ _ _ _ A')|].
    apply (before_public _ _ (Public ns None None) (Public ns' None None)).
    + rewrite (public_checkout t ns) by exact R. now apply read_release.
    + rewrite (public_checkout t' ns') by exact R'. now apply read_release.
    + unfold compare_public. cbn [release_number]. now rewrite L.
  - intros head P A. eexists _, _. split; [exact (untagged_is _ _ _ _ A)|]. split; [exact (tagged_version _ _ _ _ _ A')|].
    apply (before_public _ _ (Public [0%N] None None) (Public ns' None None)).
    + reflexivity.
    + rewrite (public_checkout t' ns') by exact R'. now apply read_release.
    + unfold compare_public. cbn [release_number].
      replace (compare_release [0%N] ns') with Lt; [reflexivity|]. symmetry.
      pose proof (release_nonempty _ _ R') as [_ Hne]. destruct ns' as [|k ks]; [congruence|].
      cbn [compare_release]. destruct k; [|reflexivity]. cbn [N.compare].
      inversion P as [? ? X|? ? X]; subst; [congruence|]. destruct ks as [|k ks]; [inversion X|].
      cbn [compare_release].
      replace (existsb (fun n0 => negb (n0 =? 0)%N) (k :: ks)) with true; [reflexivity|]. symmetry.
      apply existsb_exists. apply Exists_exists in X. destruct X as (z & Iz & Hz). exists z. split; [exact Iz|].
      apply N.eqb_neq in Hz. now rewrite Hz.
Qed.

(** The other styles for setup.cfg that make PEP 440 versions: a greater
    distance from a release is newer. *)
Theorem C99_styles : forall s t ns n m hex hex' long long' d d' date date',
  s <> Describe -> s <> DescribeLong -> release_tag t ns -> hex_name hex -> hex_name hex' -> (n < m)%N ->
  exists v w,
    render_style (Pieces (Some t) (Z.of_N n) hex long d date) (name s) = VOk v
    /\ render_style (Pieces (Some t) (Z.of_N m) hex' long' d' date') (name s) = VOk w
    /\ before v w.
Proof.
  intros s t ns n m hex hex' long long' d d' date date' H1 H2 R Hh Hh' L.
  assert (Hs : s = Pep440 \/ (s = Pep440Pre \/ s = Pep440Post \/ s = Pep440Old)).
  { destruct s; auto; congruence. }
  destruct Hs as [->|Hs].
  - exists (checkout_version t n hex d), (checkout_version t m hex' d').
    assert (E : forall k h0 l b dt, render_style (Pieces (Some t) (Z.of_N k) h0 l b dt) (name Pep440) = VOk (checkout_version t k h0 b)).
    { intros k h0 l b dt. destruct (release_cons _ _ R) as (c & r & Et).
      change (render_style (Pieces (Some t) (Z.of_N k) h0 l b dt) (name Pep440))
        with (VOk (render_pep440 (Pieces (Some t) (Z.of_N k) h0 l b dt))).
      f_equal. unfold render_pep440, tagged, checkout_version, away. cbn [p_tag p_distance p_dirty p_short].
      rewrite Et, int_text_of_N. replace (Z.of_N k =? 0)%Z with (k =? 0)%N by (destruct (N.eqb_spec k 0); lia).
      destruct (k =? 0)%N, b; reflexivity. }
    split; [apply E|]. split; [apply E|]. apply same_tag_before; auto.
  - destruct (style_stage s t ns n hex long d date Hs R) as (v & Ev & Rv).
    destruct (style_stage s t ns m hex' long' d' date' Hs R) as (w & Ew & Rw).
    exists v, w. split; [exact Ev|]. split; [exact Ew|]. eapply before_public; eauto using stage_grows.
Qed.

(** Uncommitted changes do not sort after the commit in these styles, except at
    the release itself: pep440-pre does not show them, and in pep440-post and
    pep440-old they make the version older, as the comments in the code say. *)
Theorem C99_local_changes_styles : forall s t ns n hex long date,
  release_tag t ns -> hex_name hex ->
  let version (d : bool) := render_style (Pieces (Some t) (Z.of_N n) hex long d date) (name s) in
  (s = Pep440Pre -> version true = version false)
  /\ (s = Pep440Post \/ s = Pep440Old -> exists v w,
        version false = VOk v /\ version true = VOk w
        /\ if (n =? 0)%N then before v w else before w v).
Proof.
  intros s t ns n hex long date R Hh version. split.
  - intros ->. reflexivity.
  - intros Hs. destruct (style_stage s t ns n hex long false date (or_intror Hs) R) as (v & Ev & Rv).
    destruct (style_stage s t ns n hex long true date (or_intror Hs) R) as (w & Ew & Rw).
    exists v, w. split; [exact Ev|]. split; [exact Ew|]. destruct (n =? 0)%N eqn:En.
    + eapply before_public; [exact Rv|exact Rw|]. destruct Hs as [-> | ->]; cbn [stage]; rewrite En; cbn [andb negb];
        unfold compare_public; cbn [release_number]; now rewrite compare_release_refl.
    + eapply before_public; [exact Rw|exact Rv|]. destruct Hs as [-> | ->]; cbn [stage]; rewrite En; cbn [andb negb];
        unfold compare_public; cbn [release_number early post dev compare_post]; rewrite compare_release_refl;
        now rewrite N.compare_refl.
Qed.

(** A history with a merge: 0 - 1 - 3 - 4, 0 - 2 - 3; the tag is on 0. *)
Definition example_history : history :=
  fun c => match c with 1 => [0] | 2 => [0] | 3 => [1; 2] | 4 => [3] | _ => [] end%nat.
Example C99_case :
  in_order example_history /\ contains example_history 4%nat 1%nat
  /\ commits_since example_history 0%nat 1%nat 1%N /\ commits_since example_history 0%nat 4%nat 4%N
  /\ (exists g, at_tag (T "0.1") 1 (T "1ab2c3d") true g /\ version_is g (T "0.1+1.g1ab2c3d.dirty"))
  /\ (exists g, at_tag (T "0.1") 4 (T "0123abc") false g /\ version_is g (T "0.1+4.g0123abc"))
  /\ before (T "0.1+1.g1ab2c3d.dirty") (T "0.1+4.g0123abc")
  /\ release_tag (T "0.10") [0; 10]%N /\ compare_release [0; 9]%N [0; 10]%N = Lt.
Proof.
  assert (Inv : forall c a, contains example_history c a -> a = c \/ exists p, In p (example_history c) /\ contains example_history p a).
  { intros c a H. inversion H; subst; eauto. }
  assert (C0 : forall a, contains example_history 0%nat a <-> a = 0%nat).
  { intros a. split; [|intros ->; constructor]. intros H. apply Inv in H. destruct H as [->|(p & [] & _)]. reflexivity. }
  assert (C1 : forall a, contains example_history 1%nat a <-> a = 1%nat \/ a = 0%nat).
  { intros a. split.
    - intros H. apply Inv in H. destruct H as [->|(p & [<-|[]] & H)]; [auto|]. apply C0 in H. auto.
    - intros [->| ->]; [constructor|]. apply (contains_parent _ _ 0%nat); [cbn; auto|constructor]. }
  assert (C2 : forall a, contains example_history 2%nat a <-> a = 2%nat \/ a = 0%nat).
  { intros a. split.
    - intros H. apply Inv in H. destruct H as [->|(p & [<-|[]] & H)]; [auto|]. apply C0 in H. auto.
    - intros [->| ->]; [constructor|]. apply (contains_parent _ _ 0%nat); [cbn; auto|constructor]. }
  assert (C3 : forall a, contains example_history 3%nat a <-> a = 3%nat \/ a = 2%nat \/ a = 1%nat \/ a = 0%nat).
  { intros a. split.
    - intros H. apply Inv in H. destruct H as [->|(p & [<-|[<-|[]]] & H)]; [auto| |].
      + apply C1 in H. tauto.
      + apply C2 in H. tauto.
    - intros [->|[->|H]]; [constructor| |].
      + apply (contains_parent _ _ 2%nat); [cbn; auto|constructor].
      + apply (contains_parent _ _ 1%nat); [cbn; auto|]. apply C1. tauto. }
  assert (C4 : forall a, contains example_history 4%nat a <-> a = 4%nat \/ a = 3%nat \/ a = 2%nat \/ a = 1%nat \/ a = 0%nat).
  { intros a. split.
    - intros H. apply Inv in H. destruct H as [->|(p & [<-|[]] & H)]; [auto|]. apply C3 in H. tauto.
    - intros [->|H]; [constructor|]. apply (contains_parent _ _ 3%nat); [cbn; auto|]. apply C3. tauto. }
  assert (Vf : forall tag n hex (d : bool), tag <> [] -> ~ In newline tag -> hex_name hex ->
            exists g, at_tag tag n hex d g /\ version_is g (checkout_version tag n hex d)).
  { intros tag n hex d Ht Hnl Hh.
    assert (A : at_tag tag n hex d (Git (Some []) (Some (describe_output (T "v" ++ tag) n hex d ++ [])) (Some (T "0123abcdef" ++ []))
                (Some (nat_text 0 ++ [])) (Some ((T "2020-01-02" ++ T " " ++ T "10:11:12" ++ T " " ++ T "+0200") ++ [])))).
    { split; [exact Ht|]. split; [exact Hnl|]. split; [exact Hh|]. unfold prints.
      exists [], (T "0123abcdef"), (T "2020-01-02"), (T "10:11:12"), (T "+0200"), [], [], [], 0%N, []. split; [reflexivity|].
      repeat split; try discriminate; repeat constructor. }
    eexists. split; [exact A|]. now apply tagged_version. }
  assert (Hx : hex_name (T "1ab2c3d") /\ hex_name (T "0123abc")).
  { split; split; try discriminate; repeat constructor. }
  split; [|split; [|split; [|split; [|split; [|split; [|split; [|split]]]]]]].
  - intros c p. destruct c as [|[|[|[|[|c]]]]]; cbn; lia.
  - apply C4. tauto.
  - exists [1%nat]. split; [repeat constructor; intros []|]. split; [|reflexivity].
    intros c. rewrite C1, C0. cbn. lia.
  - exists [1; 2; 3; 4]%nat. split; [repeat constructor; cbn; lia|]. split; [|reflexivity].
    intros c. rewrite C4, C0. cbn. lia.
  - destruct (Vf (T "0.1") 1%N (T "1ab2c3d") true) as (g & A & V); try discriminate; try tauto.
    { cbn. intuition discriminate. } exists g. split; [exact A|exact V].
  - destruct (Vf (T "0.1") 4%N (T "0123abc") false) as (g & A & V); try discriminate; try tauto.
    { cbn. intuition discriminate. } exists g. split; [exact A|exact V].
  - reflexivity.
  - repeat constructor.
  - reflexivity.
Qed.
Print Assumptions C99_later_commit.
Print Assumptions C99_untagged.
Print Assumptions C99_local_changes.
Print Assumptions C99_next_release.
Print Assumptions C99_styles.
Print Assumptions C99_local_changes_styles.

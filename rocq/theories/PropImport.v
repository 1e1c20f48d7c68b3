(** C73, continued: exactly which versions survive the import of a distribution. *)
From Coq Require Import String Ascii ZArith NArith Bool List Lia.
Import ListNotations.
From Verif Require Import Version VersionFacts Versioneer PropDist.
Open Scope list_scope.

(** The text does not end the literal. *)
Definition inside (t : text) : Prop := forall a b, t <> a ++ T "'''" ++ b.

(** * The literal gives back every text *)
Lemma literal_char c s : c <> "'"%char -> triple_quoted (json_char c ++ s) = after_char c (triple_quoted s).
Proof.
  intros H. destruct c as [[] [] [] [] [] [] [] []]; try congruence; reflexivity.
Qed.

Lemma inside_tail c t : inside (c :: t) -> inside t.
Proof. intros H a b E. apply (H (c :: a) b). now rewrite E. Qed.

Lemma literal_text t s : inside t ->
  triple_quoted (flat_map json_char t ++ quote :: s) = before (t ++ [quote]) (triple_quoted s).
Proof.
  induction t as [|c t IH]; intros Hc.
  - cbn [flat_map app]. apply (triple_ordinary [quote]). repeat constructor; discriminate.
  - specialize (IH (inside_tail _ _ Hc)). destruct (Ascii.eqb_spec c "'") as [->|Hn].
    + cbn [flat_map]. change (json_char "'") with (T "'"). cbn [T list_ascii_of_string app].
      assert (Hs : starts_with (T "'''") ("'"%char :: flat_map json_char t ++ quote :: s) = false).
      { destruct (starts_with _ _) eqn:E; [|reflexivity]. exfalso. apply starts_with_iff in E.
        destruct E as (r & E). cbn [T list_ascii_of_string app] in E. injection E as E.
        destruct t as [|c1 t1]; [discriminate E|]. cbn [flat_map] in E.
        destruct (json_char_nonempty c1) as (x1 & r1 & E1). rewrite E1 in E. cbn [app] in E. injection E as -> E.
        pose proof (json_char_apostrophe c1 _ E1) as ->. injection E1 as <-. cbn [app] in E.
        destruct t1 as [|c2 t2]; [discriminate E|]. cbn [flat_map] in E.
        destruct (json_char_nonempty c2) as (x2 & r2 & E2). rewrite E2 in E. cbn [app] in E. injection E as -> E.
        pose proof (json_char_apostrophe c2 _ E2) as ->.
        now apply (Hc [] t2). }
      cbn [triple_quoted]. rewrite Hs. change (Ascii.eqb "'" "\") with false. cbn iota.
      rewrite IH, before_char. reflexivity.
    + cbn [flat_map]. rewrite <- app_assoc, literal_char by exact Hn. rewrite IH, before_char. reflexivity.
Qed.

(** * Strings that end before a newline *)
Lemma hex_newline a b c d : In newline [a; b; c; d] -> forall x, hex4 a b c d <> VOk x.
Proof.
  intros H x. unfold hex4. cbn [In] in H.
  assert (hex_value newline = None) by reflexivity.
  destruct H as [->|[->|[->|[->|[]]]]]; rewrite H0;
    repeat match goal with |- context [match ?o with _ => _ end] => destruct o end; discriminate.
Qed.

Lemma string_guard : forall n a w t r, length a <= n -> json_string (a ++ newline :: w) = VOk (t, r) ->
  exists r0, r = r0 ++ newline :: w /\ length t + length r0 + 1 <= length a
    /\ (length t + length r0 + 1 = length a -> a = t ++ quote :: r0 /\ Forall clean_char t).
Proof.
  induction n as [|n IH]; intros a w t r Hn H.
  { destruct a; [discriminate H|cbn in Hn; lia]. }
  destruct a as [|c a]; [discriminate H|]. cbn [app json_string] in H.
  destruct (Ascii.eqb_spec c quote) as [->|Hq].
  { injection H as <- <-. exists a. cbn. repeat split; auto with arith. lia. }
  destruct (Ascii.eqb_spec c "\") as [->|Hb].
  - destruct a as [|e a].
    { cbn [app] in H. change (Ascii.eqb newline "u") with false in H. cbn iota in H. discriminate H. }
    cbn [app] in H. destruct (Ascii.eqb e "u").
    + destruct a as [|h1 [|h2 [|h3 [|h4 a]]]]; cbn [app] in H.
      { destruct w as [|w1 [|w2 [|w3 w]]]; try (exfalso; discriminate H). }
      { destruct w as [|w1 [|w2 w]]; try (exfalso; discriminate H). exfalso.
        destruct (hex4 h1 newline w1 w2) as [x|] eqn:E; [|discriminate H]. now apply (hex_newline h1 newline w1 w2 ltac:(cbn; tauto) x). }
      { destruct w as [|w1 w]; try (exfalso; discriminate H). exfalso.
        destruct (hex4 h1 h2 newline w1) as [x|] eqn:E; [|discriminate H]. now apply (hex_newline h1 h2 newline w1 ltac:(cbn; tauto) x). }
      { exfalso. destruct (hex4 h1 h2 h3 newline) as [x|] eqn:E; [|discriminate H]. now apply (hex_newline h1 h2 h3 newline ltac:(cbn; tauto) x). }
      destruct (hex4 h1 h2 h3 h4) as [x|]; [|discriminate H]. cbn [vbind] in H. unfold after_char in H.
      destruct (json_string (a ++ newline :: w)) as [[t' r']|] eqn:E; [|discriminate H]. cbn [vbind] in H. injection H as <- <-.
      destruct (IH a w t' r') as (r0 & -> & L & _); [cbn in Hn; lia|exact E|]. exists r0. split; [reflexivity|]. cbn. split; lia.
    + destruct (simple_escape e) as [x|]; [|discriminate H]. unfold after_char in H.
      destruct (json_string (a ++ newline :: w)) as [[t' r']|] eqn:E; [|discriminate H]. cbn [vbind] in H. injection H as <- <-.
      destruct (IH a w t' r') as (r0 & -> & L & _); [cbn in Hn; lia|exact E|]. exists r0. split; [reflexivity|]. cbn. split; lia.
  - destruct (Nat.ltb_spec (nat_of_ascii c) 32); [discriminate H|]. unfold after_char in H.
    destruct (json_string (a ++ newline :: w)) as [[t' r']|] eqn:E; [|discriminate H]. cbn [vbind] in H. injection H as <- <-.
    destruct (IH a w t' r') as (r0 & -> & L & L2); [cbn in Hn; lia|exact E|]. exists r0. split; [reflexivity|]. cbn. split; [lia|].
    intros K. destruct L2 as [-> F]; [lia|]. split; [reflexivity|]. constructor; [|exact F]. repeat split; assumption.
Qed.

(** * Objects that end after a newline *)
Definition tail_of (w : text) : text := newline :: "}"%char :: w.

Lemma skip_guard a w : (exists c b, skip_space (a ++ tail_of w) = (c :: b) ++ tail_of w /\ length (c :: b) <= length a)
  \/ skip_space (a ++ tail_of w) = "}"%char :: w.
Proof.
  induction a as [|c a IH]; [right; reflexivity|]. unfold skip_space in *. cbn [app lstrip_by].
  destruct (is_jspace c).
  - destruct IH as [(d & b & E & L)|E]; [left|now right]. exists d, b. cbn [length] in *. split; [exact E|lia].
  - left. exists c, a. auto.
Qed.

Lemma starts_guard p a w : ~ In newline p -> starts_with p (a ++ tail_of w) = true ->
  exists b, a = p ++ b.
Proof.
  revert a. induction p as [|c p IH]; intros a Hp H; [exists a; reflexivity|]. destruct a as [|d a]; unfold tail_of in H; cbn [app starts_with] in H.
  - destruct (Ascii.eqb_spec c newline) as [->|]; [exfalso; apply Hp; now left|discriminate H].
  - destruct (Ascii.eqb_spec c d) as [->|]; [|discriminate H]. destruct (IH a) as [b ->]; [intros K; apply Hp; now right|exact H|].
    now exists b.
Qed.

Lemma value_guard a w v r : json_value (a ++ tail_of w) = VOk (v, r) ->
  exists r0, r = r0 ++ tail_of w /\ length r0 < length a
    /\ forall t, v = JText t -> length t + length r0 + 2 <= length a.
Proof.
  intros H. destruct a as [|c a]; [discriminate H|]. unfold json_value in H. cbn [app] in H.
  destruct (Ascii.eqb c quote).
  - destruct (json_string (a ++ tail_of w)) as [[t r']|] eqn:E; [|discriminate H]. cbn [vbind] in H. injection H as <- <-.
    destruct (string_guard _ a ("}"%char :: w) t r' (le_n _) E) as (r0 & -> & L & _). exists r0.
    split; [reflexivity|]. cbn. split; [lia|]. intros t' Et. injection Et as <-. lia.
  - assert (K : forall p : string, ~ In newline (T p) -> 0 < length (T p) -> starts_with (T p) (c :: a ++ tail_of w) = true ->
      exists r0, skipn (length (T p)) (c :: a ++ tail_of w) = r0 ++ tail_of w /\ length r0 < length (c :: a)).
    { intros p Hp L E. change (c :: a ++ tail_of w) with ((c :: a) ++ tail_of w) in *.
      apply starts_guard in E; [|exact Hp]. destruct E as [b ->]. rewrite <- app_assoc, skipn_app_len.
      exists b. split; [reflexivity|]. rewrite app_length. lia. }
    assert (N : forall p, forallb (fun c => negb (Ascii.eqb c newline)) (T p) = true -> ~ In newline (T p)).
    { intros p Hp Hi. rewrite forallb_forall in Hp. specialize (Hp _ Hi). discriminate Hp. }
    destruct (starts_with (T "null") _) eqn:E1; [|destruct (starts_with (T "true") _) eqn:E2; [|destruct (starts_with (T "false") _) eqn:E3]].
    + injection H as <- <-. destruct (K "null"%string (N "null"%string eq_refl) ltac:(cbn; lia) E1) as (r0 & E & L). exists r0. split; [exact E|]. split; [exact L|]. discriminate.
    + injection H as <- <-. destruct (K "true"%string (N "true"%string eq_refl) ltac:(cbn; lia) E2) as (r0 & E & L). exists r0. split; [exact E|]. split; [exact L|]. discriminate.
    + injection H as <- <-. destruct (K "false"%string (N "false"%string eq_refl) ltac:(cbn; lia) E3) as (r0 & E & L). exists r0. split; [exact E|]. split; [exact L|]. discriminate.
    + destruct (is_digit c || _); discriminate H.
Qed.

Lemma object_guard fuel : forall a w d r, json_object fuel (skip_space (a ++ tail_of w)) = VOk (d, r) ->
  forall k t, In (k, JText t) d -> length t < length a.
Proof.
  induction fuel as [|fuel IH]; intros a w d r H; [discriminate H|]. cbn [json_object] in H.
  destruct (skip_guard a w) as [(q & b & E & L)|E]; rewrite E in H; [|discriminate H]. cbn [app length] in H, L.
  destruct (Ascii.eqb q quote); [|discriminate H].
  destruct (json_string (b ++ tail_of w)) as [[k1 r1]|] eqn:Ek; [|discriminate H]. cbn [vbind] in H.
  destruct (string_guard _ b ("}"%char :: w) k1 r1 (le_n _) Ek) as (r1a & -> & L1 & _).
  change (r1a ++ newline :: "}"%char :: w) with (r1a ++ tail_of w) in H.
  destruct (skip_guard r1a w) as [(c & r2 & E2 & L2)|E2]; rewrite E2 in H; [|discriminate H]. cbn [app length] in H, L2.
  destruct (Ascii.eqb c ":"); [|discriminate H].
  destruct (skip_guard r2 w) as [(c3 & r3 & E3 & L3)|E3]; rewrite E3 in H; [|discriminate H].
  destruct (json_value ((c3 :: r3) ++ tail_of w)) as [[v r4]|] eqn:Ev; [|discriminate H]. cbn [vbind] in H.
  destruct (value_guard _ _ _ _ Ev) as (r4a & -> & L4 & L5). cbn [length] in *.
  assert (Hv : forall t, v = JText t -> length t < length a) by (intros t Et; specialize (L5 t Et); lia).
  destruct (skip_guard r4a w) as [(e & r5 & E5 & L6)|E5]; rewrite E5 in H.
  - cbn [app length] in H, L6. destruct (Ascii.eqb e "}").
    + injection H as <- _. intros k t [Hi|[]]. injection Hi as _ Hi. now apply Hv.
    + destruct (Ascii.eqb e ","); [|discriminate H].
      destruct (json_object fuel (skip_space (r5 ++ tail_of w))) as [[d2 r6]|] eqn:Eo; [|discriminate H]. cbn [vbind] in H.
      injection H as <- _. intros k t [Hi|Hi]; [injection Hi as _ Hi; now apply Hv|].
      specialize (IH _ _ _ _ Eo k t Hi). lia.
  - change (Ascii.eqb "}" "}") with true in H. cbn iota in H. injection H as <- _. intros k t [Hi|[]].
    injection Hi as _ Hi. now apply Hv.
Qed.

(** * The file *)
Lemma literal_quote_text t s : inside t ->
  triple_quoted (text_with (flat_map json_char) t ++ s) = before (text_with raw t) (triple_quoted s).
Proof.
  intros Hc. unfold text_with. rewrite <- app_comm_cons, <- app_assoc.
  change (quote :: flat_map json_char t ++ [quote] ++ s) with ([quote] ++ (flat_map json_char t ++ quote :: s)).
  rewrite triple_ordinary by (repeat constructor; discriminate). rewrite literal_text by exact Hc.
  rewrite before_before. reflexivity.
Qed.

Lemma literal_member m s : inside (fst m) -> match snd m with JText t => inside t | _ => True end ->
  triple_quoted (member_with (flat_map json_char) m ++ s) = before (member_with raw m) (triple_quoted s).
Proof.
  intros Hk Hv. unfold member_with. rewrite <- !app_assoc.
  rewrite triple_ordinary by (repeat constructor; discriminate).
  rewrite literal_quote_text by exact Hk.
  rewrite triple_ordinary by (repeat constructor; discriminate).
  assert (V : triple_quoted (val_with (flat_map json_char) (snd m) ++ s) = before (val_with raw (snd m)) (triple_quoted s)).
  { destruct (snd m) as [|[]|t]; cbn [val_with]; [| | |now apply literal_quote_text];
      apply triple_ordinary; repeat constructor; discriminate. }
  rewrite V, !before_before. f_equal. now rewrite <- !app_assoc.
Qed.

Lemma literal_members d s : Forall inside (texts d) ->
  triple_quoted (members_with (flat_map json_char) d ++ s) = before (members_with raw d) (triple_quoted s).
Proof.
  induction d as [|m d IH]; intros Hc.
  - cbn. destruct (triple_quoted s) as [[x r]|]; reflexivity.
  - unfold texts in Hc. cbn [flat_map app] in Hc. apply Forall_cons_iff in Hc. destruct Hc as [H1 H2].
    apply Forall_app in H2. destruct H2 as [H2 H3].
    assert (Hv : match snd m with JText t => inside t | _ => True end).
    { destruct (snd m); trivial. now apply Forall_inv in H2. }
    destruct d as [|m' d].
    + cbn [members_with]. now apply literal_member.
    + change (members_with (flat_map json_char) (m :: m' :: d))
        with (member_with (flat_map json_char) m ++ T "," ++ newline :: members_with (flat_map json_char) (m' :: d)).
      change (members_with raw (m :: m' :: d)) with (member_with raw m ++ T "," ++ newline :: members_with raw (m' :: d)).
      rewrite <- app_assoc, literal_member by assumption.
      change ((T "," ++ newline :: members_with (flat_map json_char) (m' :: d)) ++ s)
        with ([","%char; newline] ++ (members_with (flat_map json_char) (m' :: d) ++ s)).
      rewrite triple_ordinary by (repeat constructor; discriminate).
      rewrite (IH H3), !before_before, <- app_assoc. reflexivity.
Qed.

(** The import decodes the texts as they are, without JSON escapes. *)
Lemma import_raw d : Forall inside (texts d) ->
  import_get_versions (version_file d) = json_loads ([newline] ++ dumps_with raw d ++ [newline]).
Proof.
  intros Hc. unfold version_file. rewrite import_of.
  replace (newline :: json_dumps d ++ newline :: template_close ++ template_tail)
    with ([newline; "{"%char; newline] ++ (members_with (flat_map json_char) d
           ++ ([newline; "}"%char; newline] ++ (T "'''" ++ T "  # END VERSION_JSON" ++ template_tail)))).
  2:{ rewrite json_dumps_with. unfold dumps_with. cbn [app T list_ascii_of_string]. f_equal. f_equal. f_equal.
      rewrite <- app_assoc. reflexivity. }
  rewrite triple_ordinary by (repeat constructor; discriminate). rewrite literal_members by exact Hc.
  rewrite triple_ordinary by (repeat constructor; discriminate).
  change (triple_quoted (T "'''" ++ T "  # END VERSION_JSON" ++ template_tail))
    with (VOk (@nil ascii, T "  # END VERSION_JSON" ++ template_tail)).
  rewrite !before_before. cbn [before vbind].
  change (match split_on newline (T "  # END VERSION_JSON" ++ template_tail) with
          | l1 :: r1 => only_comment l1 && defines_function r1 | [] => false end) with true.
  rewrite app_nil_r, <- app_assoc. f_equal.
  unfold dumps_with. cbn [app T list_ascii_of_string]. f_equal. f_equal. f_equal. rewrite <- app_assoc. reflexivity.
Qed.

(** Members that are read as written, followed by others. *)
Definition written (pre : dict) : text := flat_map (fun m => member_with raw m ++ T "," ++ [newline]) pre.

Lemma members_written pre m : members_with raw (pre ++ [m]) = written pre ++ member_with raw m.
Proof.
  induction pre as [|p pre IH]; [reflexivity|]. unfold written in *. cbn [app flat_map].
  destruct (pre ++ [m]) as [|x l] eqn:E; [destruct pre; discriminate|].
  change (members_with raw (p :: x :: l)) with (member_with raw p ++ T "," ++ newline :: members_with raw (x :: l)).
  rewrite IH, <- !app_assoc. reflexivity.
Qed.

Lemma object_written pre : Forall (readable raw) (texts pre) -> forall fuel s,
  json_object (length pre + fuel) (skip_space (written pre ++ s)) =
  vbind (json_object fuel (skip_space s)) (fun '(d, r) => VOk (pre ++ d, r)).
Proof.
  induction pre as [|[k v] pre IH]; intros Hr fuel s.
  - cbn [written flat_map app length plus]. destruct (json_object fuel (skip_space s)) as [[d r]|]; reflexivity.
  - assert (Hr' : readable raw k /\ match v with JText t => readable raw t | _ => True end /\ Forall (readable raw) (texts pre)).
    { unfold texts in *. cbn [flat_map fst snd app] in Hr. apply Forall_cons_iff in Hr. destruct Hr as [H1 H2].
      split; [exact H1|]. apply Forall_app in H2. destruct H2 as [H2 H3]. split; [|exact H3].
      destruct v; trivial. now apply Forall_inv in H2. }
    destruct Hr' as (Hk & Hv & Hd).
    cbn [written flat_map length plus]. fold (written pre). unfold member_with. cbn [fst snd].
    rewrite <- !app_assoc.
    assert (Hs : forall x, skip_space (T " " ++ text_with raw k ++ x) = text_with raw k ++ x) by reflexivity.
    rewrite Hs, json_object_member by assumption.
    cbn [T list_ascii_of_string app]. rewrite (skip_space_stop ","%char) by reflexivity.
    change (Ascii.eqb "," "}") with false. change (Ascii.eqb "," ",") with true. cbn iota.
    assert (E : forall x, skip_space (newline :: x) = skip_space x) by reflexivity.
    rewrite E, IH by exact Hd. destruct (json_object fuel (skip_space s)) as [[d r]|]; reflexivity.
Qed.

(** * Theorems *)
Definition other_members (v : versions) : dict :=
  [(T "date", opt_text (v_date v));
   (T "dirty", match v_dirty v with Some b => JBool b | None => JNull end);
   (T "error", opt_text (v_error v));
   (T "full-revisionid", opt_text (v_full v))].

Lemma keys_clean k : In k [T "date"; T "dirty"; T "error"; T "full-revisionid"; T "version"] -> clean k.
Proof.
  intros Hk. cbn [In] in Hk. repeat (destruct Hk as [<-|Hk]; [apply clean_ordinary;
    repeat constructor; try discriminate; cbn; lia|]). contradiction.
Qed.

Lemma others_clean v : clean_option (v_full v) -> clean_option (v_error v) -> clean_option (v_date v) ->
  Forall clean (texts (other_members v)).
Proof.
  intros H1 H2 H3. assert (O : forall o, clean_option o -> Forall clean match opt_text o with JText t => [t] | _ => [] end).
  { intros [t|] Ho; repeat constructor; apply Ho. }
  unfold texts, other_members. cbn [flat_map fst snd app].
  repeat first [apply Forall_cons; [apply keys_clean; cbn [In]; tauto|] | apply Forall_app; split]; auto.
  destruct (v_dirty v); constructor.
Qed.

(** What the import reads as __version__. *)
Definition imported_version (v : versions) : vres jval :=
  vbind (import_get_versions (version_file (dict_of v))) version_of.

(** An installed package has the version it was built with exactly if the version
    has no double quote, no backslash and no control character (the other texts
    are clean in every checkout; the version does not end the literal). *)
Theorem C73_import_exact : forall v,
  clean_option (v_full v) -> clean_option (v_error v) -> clean_option (v_date v) -> inside (v_version v) ->
  (imported_version v = VOk (JText (v_version v)) <-> Forall clean_char (v_version v)).
Proof.
  intros v H1 H2 H3 Hi. split.
  2:{ intros Hc. unfold imported_version. destruct (C73_import_partial v) as [-> E]; [|exact E].
      split; [split; [exact Hc|exact Hi]|]. auto. }
  pose proof (others_clean v H1 H2 H3) as HC. set (V := v_version v) in *.
  assert (ED : dict_of v = other_members v ++ [(T "version", JText V)]) by reflexivity.
  assert (HI : Forall inside (texts (dict_of v))).
  { rewrite ED. unfold texts. rewrite flat_map_app. apply Forall_app. split.
    - eapply Forall_impl; [|exact HC]. intros t [_ Ht]. exact Ht.
    - cbn [flat_map fst snd app]. constructor; [|constructor; [exact Hi|constructor]].
      refine (proj2 (keys_clean (T "version") _)). cbn [In]. tauto. }
  unfold imported_version. rewrite import_raw by exact HI.
  assert (HR : Forall (readable raw) (texts (other_members v))).
  { eapply Forall_impl; [|exact HC]. intros t [Ht _] s. now apply clean_raw. }
  unfold json_loads. unfold dumps_with. rewrite ED, members_written.
  set (M := written (other_members v) ++ member_with raw (T "version", JText V)).
  assert (N : forall x, skip_space (newline :: x) = skip_space x) by reflexivity.
  cbn [app T list_ascii_of_string]. rewrite N, (skip_space_stop "{"%char) by reflexivity.
  change (Ascii.eqb "{" "{") with true. cbn iota. rewrite N.
  set (n := length _).
  assert (Hn : exists n', n = 4 + S n').
  { unfold n. cbn [length app]. rewrite !app_length. unfold M. rewrite app_length. unfold written, other_members.
    cbn [flat_map]. rewrite !app_length. cbn [length].
    match goal with |- exists n', S (S (S (?a + ?b))) = _ => exists (a + b - 2) end.
    unfold member_with at 1. cbn. lia. }
  destruct Hn as [n' Hn]. rewrite Hn. clearbody n. clear Hn n.
  replace ((M ++ [newline; "}"%char]) ++ [newline]) with (M ++ tail_of [newline]) by (unfold tail_of; now rewrite <- app_assoc).
  assert (ES : exists c r, skip_space (M ++ tail_of [newline]) = c :: r /\ Ascii.eqb c "}" = false).
  { unfold M, written, other_members. cbn [flat_map]. rewrite <- !app_assoc. unfold member_with at 1. cbn [fst snd].
    rewrite <- !app_assoc. eexists _, _. split; [reflexivity|reflexivity]. }
  destruct ES as (c0 & r0 & ES & E0). rewrite ES, E0, <- ES. clear ES E0 c0 r0. unfold M. rewrite <- app_assoc.
  change (4 + S n') with (length (other_members v) + S n'). rewrite object_written by exact HR.
  unfold member_with. cbn [fst snd val_with]. rewrite <- !app_assoc.
  assert (Hs : forall x, skip_space (T " " ++ text_with raw (T "version") ++ x) = text_with raw (T "version") ++ x) by reflexivity.
  rewrite Hs. unfold text_with at 1. cbn [app]. cbn [json_object]. rewrite Ascii.eqb_refl. rewrite <- app_assoc. cbn [app].
  rewrite (clean_raw (T "version")) by (refine (proj1 (keys_clean (T "version") _)); cbn [In]; tauto). cbn [vbind].
  cbn [T list_ascii_of_string app]. rewrite (skip_space_stop ":"%char) by reflexivity.
  change (Ascii.eqb ":" ":") with true. cbn iota.
  assert (Ew : forall x, skip_space (" "%char :: quote :: x) = quote :: x) by reflexivity.
  unfold text_with, raw. cbn [app]. rewrite Ew. unfold json_value. rewrite Ascii.eqb_refl.
  destruct (json_string ((V ++ [quote]) ++ tail_of [newline])) as [[t r]|] eqn:Et; [|discriminate]. cbn [vbind].
  destruct (string_guard _ _ _ _ _ (le_n _) Et) as (r0 & -> & L & L2). rewrite app_length in L, L2. cbn [length] in L, L2.
  change (newline :: "}"%char :: [newline]) with (tail_of [newline]).
  assert (F : forall d, version_of (other_members v ++ d) = VOk (JText V) -> In (T "version", JText V) d).
  { intros d. unfold version_of, dict_get. destruct (find _ _) as [[k x]|] eqn:Ef; [|discriminate].
    intros Hx. injection Hx as ->. apply find_some in Ef. cbn [fst] in Ef. destruct Ef as [Ei Ek].
    apply text_eqb_eq in Ek. subst k. rewrite <- in_rev in Ei. apply in_app_or in Ei. destruct Ei as [Ei|Ei]; [|exact Ei].
    exfalso. cbn in Ei. repeat (destruct Ei as [Ei|Ei]; [discriminate Ei|]). exact Ei. }
  assert (Done : t = V -> r0 = [] -> Forall clean_char V).
  { intros -> ->. apply L2. cbn. lia. }
  destruct (skip_guard r0 [newline]) as [(e & r5 & E5 & L6)|E5]; rewrite E5.
  - cbn [app length] in *. destruct (Ascii.eqb e "}").
    + cbn [vbind]. destruct (skip_space (r5 ++ _)); [|discriminate]. intros Hx. apply F in Hx.
      destruct Hx as [Hx|[]]. injection Hx as Hx. exfalso. rewrite Hx in L. cbn in L6. lia.
    + destruct (Ascii.eqb e ","); [|discriminate].
      destruct (json_object n' (skip_space (r5 ++ tail_of [newline]))) as [[d2 r6]|] eqn:Eo; [|discriminate]. cbn [vbind].
      destruct (skip_space r6); [|discriminate]. intros Hx. apply F in Hx. exfalso. destruct Hx as [Hx|Hx].
      * injection Hx as Hx. rewrite Hx in L. lia.
      * pose proof (object_guard _ _ _ _ _ Eo _ _ Hx). lia.
  - change (Ascii.eqb "}" "}") with true. cbn [vbind]. cbn iota. change (skip_space [newline]) with (@nil ascii). cbn iota.
    intros Hx. apply F in Hx. destruct Hx as [Hx|[]]. injection Hx as Hx.
    assert (length r0 = 0) by (rewrite Hx in L; lia). apply Done; [exact Hx|]. now destruct r0.
Qed.
Print Assumptions C73_import_exact.

(** A version with a backslash is read as another one, without an error. *)
Theorem C73_backslash_refuted : exists v, inside (v_version v) /\
  v_version v = T "1\n0" /\ exists x, imported_version v = VOk (JText x) /\ x <> v_version v.
Proof.
  exists (Versions (T "1\n0") None None None None). split.
  - intros a b E. assert (In "'"%char (T "1\n0")) by (cbn [v_version] in E; rewrite E; apply in_or_app; right; now left).
    cbn in H. repeat (destruct H as [H|H]; [discriminate H|]). exact H.
  - split; [reflexivity|]. eexists. split; [vm_compute; reflexivity|discriminate].
Qed.
Print Assumptions C73_backslash_refuted.

Example C73_case_exact :
  let v := Versions (T "1.0+2.gabc1234") (Some (T "abc1234")) (Some false) None (Some (T "2020-11-16T10:00:00+0200")) in
  clean_option (v_full v) /\ clean_option (v_error v) /\ clean_option (v_date v) /\ inside (v_version v)
  /\ imported_version v = VOk (JText (v_version v)).
Proof.
  assert (P : forall s, forallb (fun c => (32 <=? nat_of_ascii c)%nat && negb (Ascii.eqb c quote)
    && negb (Ascii.eqb c "\") && negb (Ascii.eqb c "'")) (T s) = true -> clean (T s)).
  { intros s H. apply clean_ordinary, Forall_T_plain, H. }
  cbn zeta. cbn [v_full v_error v_date v_version clean_option]. split; [apply P; reflexivity|]. split; [exact I|]. split; [apply P; reflexivity|].
  split; [refine (proj2 (P _ _)); reflexivity|]. vm_compute. reflexivity.
Qed.

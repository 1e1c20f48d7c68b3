(** C87, C88: how versioneer reads setup.cfg, and what [python versioneer.py
    setup] does when setup.cfg is not complete. *)
From Coq Require Import String Ascii Bool Arith Lia List.
From Verif Require Import Version VersionFacts Versioneer Setup PropSetup Project.
Import ListNotations.
Open Scope list_scope.

(** * Specification: the [versioneer] section as one writes it *)
Inductive item := IOpt (k e v : text) | IComment (c : text) | IBlank (b : text).
Definition item_line (i : item) : text :=
  match i with
  | IOpt k e v => k ++ e ++ v
  | IComment c => c
  | IBlank b => b
  end.
Definition blanks (b : text) : Prop := Forall (fun c => is_space c = true /\ is_eol c = false) b.
(** Name and value are separated by = or by a colon, with or without blanks; a
    comment starts with # or ; after any blanks. *)
Definition separator (e : text) : Prop :=
  exists a c b, e = a ++ c :: b /\ (c = "="%char \/ c = ":"%char) /\ blanks a /\ blanks b.
Definition comment (s : text) : Prop :=
  exists a c b, s = a ++ c :: b /\ (c = "#"%char \/ c = ";"%char) /\ blanks a /\ Forall (fun c => is_eol c = false) b.
Definition item_ok (i : item) : Prop :=
  match i with
  | IOpt k e v => (k <> [] /\ Forall (fun c => is_space c = false /\ c <> "="%char /\ c <> ":"%char) k
                   /\ (forall r, k <> "["%char :: r) /\ (forall r, k <> "#"%char :: r) /\ (forall r, k <> ";"%char :: r))
                  /\ separator e /\ unpadded is_space v /\ Forall (fun c => is_eol c = false) v
  | IComment c => comment c
  | IBlank b => blanks b
  end.
Definition section_name : text := T "versioneer".
Definition section (items : list item) : text :=
  T "[versioneer]" ++ newline :: concat (map (fun i => item_line i ++ [newline]) items).
(** What follows is another section, or nothing. *)
Definition next_section (s : text) : Prop :=
  s = [] \/ exists name r, s = T "[" ++ name ++ T "]" ++ r /\ name <> [] /\ Forall (fun c => is_eol c = false /\ c <> "]"%char) name.
(** The settings; option names are read in lower case. *)
Definition sets (items : list item) (name v : text) : Prop := exists k e, In (IOpt k e v) items /\ map lower k = name.

(** * Lines *)
Lemma lines_cons l r : ~ In newline l -> lines (l ++ newline :: r) = (l ++ [newline]) :: lines r.
Proof.
  induction l as [|c l IH]; cbn [app lines In]; intros H.
  - now rewrite Ascii.eqb_refl.
  - destruct (Ascii.eqb c newline) eqn:E; [apply Ascii.eqb_eq in E; tauto|]. now rewrite IH by tauto.
Qed.
Lemma lines_app a r : lines (a ++ newline :: r) = lines (a ++ [newline]) ++ lines r.
Proof.
  induction a as [|c a IH]; cbn [app lines].
  - now rewrite Ascii.eqb_refl.
  - destruct (Ascii.eqb c newline); [now rewrite IH|]. rewrite IH.
    destruct (lines (a ++ [newline])) as [|l ls] eqn:E; [|reflexivity].
    exfalso. destruct a as [|x a]; [discriminate|]. cbn [app lines] in E. destruct (Ascii.eqb x newline); [discriminate|].
    destruct (lines (a ++ [newline])); discriminate.
Qed.
Lemma newline_ne_cr : Ascii.eqb newline carriage_return = false. Proof. reflexivity. Qed.

(** Reading a file whose first part is made of complete lines. *)
Lemma universal_complete b : forall r, ends_line b -> b <> [] -> (forall x, r <> newline :: x) ->
  exists a, universal b = a ++ [newline] /\ universal (b ++ r) = a ++ newline :: universal r.
Proof.
  remember (length b) as n eqn:Hn. revert b Hn. induction n as [n IH] using lt_wf_ind. intros b -> r Hb Hne Hr.
  destruct b as [|c b]; [congruence|]. clear Hne.
  assert (Hb' : b <> [] -> ends_line b).
  { intros Hb'. destruct Hb as [Hb|(p & d & E & Hd)]; [discriminate|]. right. destruct p as [|x p].
    - injection E as -> ->. congruence.
    - injection E as -> E. exists p, d. auto. }
  cbn [app universal]. destruct (Ascii.eqb c carriage_return) eqn:Ec.
  - destruct b as [|d b]; cbn [app].
    + exists []. split; [reflexivity|]. destruct r as [|x r]; [reflexivity|].
      destruct (Ascii.eqb x newline) eqn:E; [apply Ascii.eqb_eq in E; subst; now contradiction (Hr r)|reflexivity].
    + destruct (Ascii.eqb d newline) eqn:Ed.
      * destruct b as [|e b].
        -- exists []. split; reflexivity.
        -- assert (X : ends_line (e :: b)).
           { destruct (Hb' ltac:(discriminate)) as [H|(p & f & E & Hf)]; [discriminate|]. right. destruct p as [|y p].
             - injection E as _ E. discriminate.
             - injection E as _ E. exists p, f. auto. }
           destruct (IH (length (e :: b)) ltac:(cbn; lia) (e :: b) eq_refl r X ltac:(discriminate) Hr) as (a & E1 & E2).
           exists (newline :: a). rewrite E1. cbn [app] in E2 |- *. now rewrite E2.
      * destruct (IH (length (d :: b)) ltac:(cbn; lia) (d :: b) eq_refl r (Hb' ltac:(discriminate)) ltac:(discriminate) Hr)
          as (a & E1 & E2).
        exists (newline :: a). rewrite E1. cbn [app] in E2 |- *. now rewrite E2.
  - destruct b as [|d b].
    + destruct Hb as [H|(p & d & E & Hd)]; [discriminate|]. destruct p as [|x p]; [|destruct p; discriminate].
      injection E as ->. unfold is_eol in Hd. apply orb_true_iff in Hd. destruct Hd as [Hd|Hd].
      * apply Ascii.eqb_eq in Hd. subst d. exists []. split; reflexivity.
      * change (ascii_of_nat 13) with carriage_return in Hd. congruence.
    + destruct (IH (length (d :: b)) ltac:(cbn; lia) (d :: b) eq_refl r (Hb' ltac:(discriminate)) ltac:(discriminate) Hr)
        as (a & E1 & E2).
      exists (c :: a). rewrite E1. split; [reflexivity|]. cbn [app] in E2 |- *. now rewrite E2.
Qed.
Lemma file_lines_app b r : ends_line b -> (forall x, r <> newline :: x) ->
  lines (universal (b ++ r)) = lines (universal b) ++ lines (universal r).
Proof.
  intros Hb Hr. destruct b as [|c b]; [reflexivity|].
  destruct (universal_complete (c :: b) r Hb ltac:(discriminate) Hr) as (a & -> & ->). apply lines_app.
Qed.
Lemma universal_line l r : Forall (fun c => is_eol c = false) l -> universal (l ++ newline :: r) = l ++ newline :: universal r.
Proof.
  intros H. induction H as [|c l Hc _ IH]; cbn [app universal].
  - now rewrite newline_ne_cr.
  - unfold is_eol in Hc. apply orb_false_iff in Hc. destruct Hc as [_ Hc]. change (ascii_of_nat 13) with carriage_return in Hc.
    now rewrite Hc, IH.
Qed.
Lemma no_newline l : Forall (fun c => is_eol c = false) l -> ~ In newline l.
Proof. intros H Hin. rewrite Forall_forall in H. specialize (H _ Hin). discriminate. Qed.
Lemma file_line l r : Forall (fun c => is_eol c = false) l ->
  lines (universal (l ++ newline :: r)) = (l ++ [newline]) :: lines (universal r).
Proof. intros H. rewrite universal_line by exact H. apply lines_cons. now apply no_newline. Qed.

Lemma read_lines_app a : forall p b, read_lines p (a ++ b) = pbind (read_lines p a) (fun p' => read_lines p' b).
Proof.
  induction a as [|x a IH]; intros p b; [reflexivity|]. cbn [app read_lines].
  destruct (read_line p x); [apply IH|reflexivity].
Qed.

(** * Dictionaries *)
Lemma text_eqb_refl x : text_eqb x x = true. Proof. now apply text_eqb_eq. Qed.
Lemma text_eqb_neq x y : text_eqb x y = false <-> x <> y.
Proof. rewrite <- text_eqb_eq. destruct (text_eqb x y); intuition congruence. Qed.
Lemma lookup_update {A} k k' (f : option A -> A) l :
  lookup k' (update k f l) = if text_eqb k k' then Some (f (lookup k l)) else lookup k' l.
Proof.
  induction l as [|[x v] l IH]; cbn [update lookup].
  - destruct (text_eqb k k'); reflexivity.
  - destruct (text_eqb x k) eqn:E; cbn [lookup].
    + apply text_eqb_eq in E. subst x. destruct (text_eqb k k'); reflexivity.
    + rewrite IH. destruct (text_eqb x k') eqn:E'; [|reflexivity].
      apply text_eqb_eq in E'. subst x. destruct (text_eqb k k') eqn:E2; [|reflexivity].
      apply text_eqb_eq in E2. subst k'. exfalso. now rewrite text_eqb_refl in E.
Qed.
Lemma lookup_snoc {A} k k' (v : A) l : lookup k' (l ++ [(k, v)]) =
  match lookup k' l with Some w => Some w | None => if text_eqb k k' then Some v else None end.
Proof. induction l as [|[x w] l IH]; cbn; [reflexivity|]. destruct (text_eqb x k'); auto. Qed.

(** * One line *)
Lemma indent_zero c r : is_space c = false -> indent_of (c :: r) = 0.
Proof. intros H. unfold indent_of. cbn [span]. now rewrite H. Qed.
Lemma ltb_0 n : (n <? 0) = false. Proof. reflexivity. Qed.

Lemma blanks_space b : blanks b -> Forall (fun c => is_space c = true) b.
Proof. intros H. eapply Forall_impl; [|exact H]. now intros c [Hc _]. Qed.
Lemma blanks_eol b : blanks b -> Forall (fun c => is_eol c = false) b.
Proof. intros H. eapply Forall_impl; [|exact H]. now intros c [_ Hc]. Qed.
Lemma name_delim k : Forall (fun c => is_space c = false /\ c <> "="%char /\ c <> ":"%char) k ->
  Forall (fun c => negb (is_delim c) = true) k.
Proof.
  intros H. eapply Forall_impl; [|exact H]. intros c (_ & H1 & H2). unfold is_delim.
  apply Ascii.eqb_neq in H1, H2. now rewrite H1, H2.
Qed.
Lemma blanks_delim b : blanks b -> Forall (fun c => negb (is_delim c) = true) b.
Proof.
  intros H. eapply Forall_impl; [|exact H]. intros c [Hc _]. unfold is_delim.
  destruct (Ascii.eqb c "=") eqn:E1; [apply Ascii.eqb_eq in E1; subst c; discriminate|].
  destruct (Ascii.eqb c ":") eqn:E2; [apply Ascii.eqb_eq in E2; subst c; discriminate|]. reflexivity.
Qed.
Lemma option_line k e v : item_ok (IOpt k e v) ->
  exists a c w, strip (item_line (IOpt k e v) ++ [newline]) = k ++ a ++ c :: w /\ blanks a /\ is_delim c = true /\ strip w = v.
Proof.
  intros ((Hk & Hkc & _) & (a & c & b & -> & Hc & Ha & Hb) & Hv & _). cbn [item_line]. rewrite strip_snoc by reflexivity.
  assert (Dc : is_delim c = true) by (destruct Hc as [-> | ->]; reflexivity).
  assert (Sc : is_space c = false) by (destruct Hc as [-> | ->]; reflexivity).
  exists a, c. destruct v as [|x v].
  - exists []. split; [|repeat split; assumption || reflexivity]. unfold strip.
    replace (k ++ (a ++ c :: b) ++ []) with ([] ++ (k ++ a ++ [c]) ++ b) by (now rewrite app_nil_r, <- !app_assoc).
    apply strip_by_pad; [constructor|now apply blanks_space|]. split.
    + destruct k as [|y k]; [congruence|]. apply Forall_inv in Hkc. apply Hkc.
    + rewrite !rev_app_distr. exact Sc.
  - exists (b ++ x :: v). split; [|split; [exact Ha|split; [exact Dc|]]].
    + replace (k ++ (a ++ c :: b) ++ x :: v) with (k ++ a ++ c :: b ++ x :: v) by (now rewrite <- !app_assoc).
      apply strip_by_id. split; [destruct k as [|y k]; [congruence|]; apply Forall_inv in Hkc; apply Hkc|].
      replace (k ++ a ++ c :: b ++ x :: v) with ((k ++ a ++ c :: b) ++ x :: v) by (now rewrite <- !app_assoc).
      rewrite rev_app_distr. destruct Hv as [_ Hv]. destruct (rev (x :: v)) as [|y r] eqn:E; [|exact Hv].
      apply (f_equal (@length ascii)) in E. rewrite rev_length in E. discriminate.
    + unfold strip. rewrite <- (app_nil_r (b ++ x :: v)), <- app_assoc.
      apply strip_by_pad; [now apply blanks_space|constructor|exact Hv].
Qed.

Lemma read_option p s k e v : item_ok (IOpt k e v) -> ps_cur p = Some s ->
  read_line p (item_line (IOpt k e v) ++ [newline]) =
  match lookup (map lower k) (opts (lookup s (ps_sections p))) with
  | Some _ => PRaise BadConfig
  | None => POk (Parser (update s (fun l => opts l ++ [(map lower k, [v])]) (ps_sections p))
                        (ps_seen p) (Some s) (Some (map lower k)) 0)
  end.
Proof.
  intros Hi Hs. destruct (option_line k e v Hi) as (a & d & w & Ew & Ha & Hd & Ev). pose proof Hi as ((Hk & Hkc & N1 & N2 & N3) & _ & _).
  unfold read_line. rewrite Ew. unfold is_comment. rewrite Ew.
  destruct k as [|c k]; [congruence|].
  assert (Ec : (Ascii.eqb c "#" || Ascii.eqb c ";") = false).
  { apply orb_false_iff. split; apply Ascii.eqb_neq; intros ->; [now apply (N2 k)|now apply (N3 k)]. }
  cbn [app]. rewrite Ec.
  assert (Ei : indent_of (item_line (IOpt (c :: k) e v) ++ [newline]) = 0).
  { cbn [item_line app]. apply indent_zero. apply Forall_inv in Hkc. apply Hkc. }
  rewrite Ei, ltb_0, andb_false_r.
  assert (Eb : Ascii.eqb c "[" = false) by (apply Ascii.eqb_neq; intros ->; now apply (N1 k)).
  unfold header. rewrite Eb. rewrite Hs.
  assert (Es : span (fun c => negb (is_delim c)) (c :: k ++ a ++ d :: w) = ((c :: k) ++ a, d :: w)).
  { replace (c :: k ++ a ++ d :: w) with (((c :: k) ++ a) ++ d :: w) by now rewrite <- app_assoc.
    apply span_app. 2:{ now rewrite Hd. }
    apply Forall_app. split; [now apply name_delim|now apply blanks_delim]. }
  rewrite Es.
  assert (En : strip ((c :: k) ++ a) = c :: k).
  { unfold strip. apply (strip_by_pad is_space [] (c :: k) a); [constructor|now apply blanks_space|]. split.
    - apply Forall_inv in Hkc. apply Hkc.
    - apply Forall_rev in Hkc. destruct (rev (c :: k)); [exact I|]. apply Forall_inv in Hkc. apply Hkc. }
  rewrite En, Ev. reflexivity.
Qed.

Lemma read_comment p c : comment c -> read_line p (item_line (IComment c) ++ [newline]) = POk p.
Proof.
  intros (a & m & b & -> & Hm & Ha & _).
  assert (E : is_comment (item_line (IComment (a ++ m :: b)) ++ [newline]) = true).
  { unfold is_comment. cbn [item_line]. rewrite strip_snoc by reflexivity.
    assert (Sm : is_space m = false) by (destruct Hm as [-> | ->]; reflexivity).
    unfold strip, strip_by. replace (lstrip_by is_space (a ++ m :: b)) with (m :: b).
    2:{ induction Ha as [|x a [Hx _] _ IH]; cbn [app lstrip_by]; [now rewrite Sm|now rewrite Hx]. }
    cbn [rev].
    destruct (strip_split is_space (m :: b)) as (x & y & E & Hx & Hy & Hu). unfold strip_by in E, Hu.
    destruct (rev (lstrip_by is_space (rev b ++ [m]))) as [|z r] eqn:Er.
    - exfalso. apply (f_equal (@rev ascii)) in Er. rewrite rev_involutive in Er. cbn [rev] in Er.
      assert (L : forall l, lstrip_by is_space (l ++ [m]) <> []).
      { induction l as [|z l IH]; cbn [app lstrip_by]; [now rewrite Sm|]. destruct (is_space z); [exact IH|discriminate]. }
      exact (L _ Er).
    - assert (P : forall l, exists q, lstrip_by is_space (l ++ [m]) = q ++ [m]).
      { induction l as [|t l IH]; cbn [app lstrip_by]; [exists []; now rewrite Sm|]. destruct (is_space t); [exact IH|].
        now exists (t :: l). }
      destruct (P (rev b)) as [q Eq]. rewrite Eq, rev_app_distr in Er. injection Er as <- _.
      destruct Hm as [-> | ->]; reflexivity. }
  unfold read_line. now rewrite E.
Qed.

Lemma read_blank p b : Forall (fun c => is_space c = true) b -> read_line p (b ++ [newline]) = POk (add_line p []).
Proof.
  intros H. assert (E : strip (b ++ [newline]) = []).
  { unfold strip. apply (strip_by_pad is_space b [] [newline]); [exact H|repeat constructor|split; exact I]. }
  unfold read_line, is_comment. now rewrite E.
Qed.

Lemma read_header p name r : name <> [] -> Forall (fun c => c <> "]"%char) name ->
  (exists q, strip (T "[" ++ name ++ T "]" ++ r) = T "[" ++ name ++ T "]" ++ q) /\
  read_line p (T "[" ++ name ++ T "]" ++ r) =
  if text_eqb name (T "DEFAULT") then POk (Parser (ps_sections p) (ps_seen p) (Some name) None 0)
  else if mem name (ps_seen p) then PRaise BadConfig
  else POk (Parser (update name opts (ps_sections p)) (name :: ps_seen p) (Some name) None 0).
Proof.
  intros Hne Hn. set (line := T "[" ++ name ++ T "]" ++ r).
  assert (X : exists q, strip line = T "[" ++ name ++ T "]" ++ q).
  { destruct (strip_split is_space r) as (a & b & E & Ha & Hb & Hu).
    set (m := strip_by is_space r) in *.
    assert (G : forall q b', r = q ++ b' -> Forall (fun c => is_space c = true) b' ->
       match rev (T "[" ++ name ++ T "]" ++ q) with [] => True | c :: _ => is_space c = false end ->
       exists q, strip line = T "[" ++ name ++ T "]" ++ q).
    { intros q b' Er Hb' Hl. exists q. unfold line, strip. rewrite Er.
      replace (T "[" ++ name ++ T "]" ++ q ++ b') with ([] ++ (T "[" ++ name ++ T "]" ++ q) ++ b')
        by (now rewrite <- !app_assoc).
      apply strip_by_pad; [constructor|exact Hb'|]. split; [reflexivity|exact Hl]. }
    destruct m as [|x m'] eqn:Em.
    - apply (G [] (a ++ b)); [exact E|apply Forall_app; auto|]. rewrite !rev_app_distr. reflexivity.
    - apply (G (a ++ x :: m') b); [now rewrite <- app_assoc|exact Hb|].
      destruct Hu as [_ Hu]. rewrite !rev_app_distr. destruct (rev (x :: m')) as [|y l] eqn:Er; [|exact Hu].
      apply (f_equal (@length ascii)) in Er. rewrite rev_length in Er. discriminate. }
  split; [exact X|]. destruct X as [q Eq]. unfold read_line. rewrite Eq. unfold is_comment. rewrite Eq.
  cbn [app T list_ascii_of_string]. change (Ascii.eqb "[" "#" || Ascii.eqb "[" ";") with false. cbn iota.
  change (indent_of line) with (indent_of ("["%char :: name ++ T "]" ++ r)). rewrite indent_zero by reflexivity.
  rewrite ltb_0, andb_false_r. unfold header. change (Ascii.eqb "[" "[") with true. cbn iota.
  rewrite (span_app (fun c => negb (Ascii.eqb c "]")) name ("]"%char :: q)).
  2:{ eapply Forall_impl; [|exact Hn]. intros c Hc. apply negb_true_iff, Ascii.eqb_neq, Hc. }
  2:{ reflexivity. }
  destruct name as [|c name]; [congruence|]. reflexivity.
Qed.

(** * Any line *)
Lemma mem_cons x y l : mem x (y :: l) = text_eqb x y || mem x l. Proof. reflexivity. Qed.

Lemma span_stop f s : forall a x q, span f s = (a, x :: q) -> f x = false.
Proof.
  induction s as [|c s IH]; intros a x q; cbn [span]; [discriminate|]. destruct (f c) eqn:Ec.
  - destruct (span f s) as [a' b']. intros E. injection E as _ ->. exact (IH a' x q eq_refl).
  - intros E. now injection E as _ -> ->.
Qed.
Lemma header_text value name : header value = Some name -> exists q, value = T "[" ++ name ++ T "]" ++ q.
Proof.
  unfold header. destruct value as [|b r]; [discriminate|]. destruct (Ascii.eqb b "[") eqn:Eb; [|discriminate].
  apply Ascii.eqb_eq in Eb. subst b. destruct (span _ r) as [n [|x q]] eqn:Es; [destruct n; discriminate|].
  destruct n as [|c n]; [discriminate|]. intros E. injection E as <-. exists q. pose proof (span_stop _ _ _ _ _ Es) as Hx.
  apply span_spec in Es. destruct Es as [-> _]. cbn beta in Hx. apply negb_false_iff, Ascii.eqb_eq in Hx. now subst x.
Qed.

(** A successful step: the line is ignored, or it extends the current section,
    or it starts another one. *)
Lemma read_line_cases p line p' : read_line p line = POk p' ->
  (exists s, ps_cur p = Some s /\ ps_cur p' = Some s /\ ps_seen p' = ps_seen p
     /\ forall n, n <> s -> lookup n (ps_sections p') = lookup n (ps_sections p))
  \/ (ps_cur p' = ps_cur p /\ ps_seen p' = ps_seen p /\ ps_sections p' = ps_sections p)
  \/ (exists name, ps_cur p' = Some name /\ (exists q, strip line = T "[" ++ name ++ T "]" ++ q)
      /\ ((name = T "DEFAULT" /\ ps_seen p' = ps_seen p /\ ps_sections p' = ps_sections p)
          \/ (name <> T "DEFAULT" /\ mem name (ps_seen p) = false /\ ps_seen p' = name :: ps_seen p
              /\ ps_sections p' = update name opts (ps_sections p)))).
Proof.
  assert (A : forall l, (exists s, ps_cur p = Some s /\ ps_cur (add_line p l) = Some s /\ ps_seen (add_line p l) = ps_seen p
     /\ forall n, n <> s -> lookup n (ps_sections (add_line p l)) = lookup n (ps_sections p))
     \/ (ps_cur (add_line p l) = ps_cur p /\ ps_seen (add_line p l) = ps_seen p /\ ps_sections (add_line p l) = ps_sections p)).
  { intros l. unfold add_line. destruct (ps_cur p) as [s|] eqn:Es; [|right; auto]. destruct (ps_opt p) as [o|]; [|right; auto].
    left. exists s. split; [reflexivity|]. cbn [ps_cur ps_seen ps_sections]. split; [reflexivity|]. split; [reflexivity|].
    intros n Hn. rewrite lookup_update. assert (E : text_eqb s n = false) by (apply text_eqb_neq; congruence). now rewrite E. }
  unfold read_line. destruct (is_comment line).
  { intros E. injection E as <-. right. left. auto. }
  destruct (strip line) as [|c value].
  { intros E. injection E as <-. destruct (A []) as [H|H]; auto. }
  destruct (negb _ && _).
  { intros E. injection E as <-. destruct (A (c :: value)) as [H|H]; auto. }
  destruct (header (c :: value)) as [name|] eqn:Eh.
  - apply header_text in Eh. destruct (text_eqb name (T "DEFAULT")) eqn:Ed.
    + intros E. injection E as <-. right. right. exists name. split; [reflexivity|]. split; [exact Eh|]. left. apply text_eqb_eq in Ed. auto.
    + destruct (mem name (ps_seen p)) eqn:Em; [discriminate|]. intros E. injection E as <-. right. right. exists name.
      split; [reflexivity|]. split; [exact Eh|]. right. apply text_eqb_neq in Ed. auto.
  - destruct (ps_cur p) as [s|] eqn:Es; [|discriminate].
    destruct (span _ _) as [o [|d v]]; [discriminate|]. destruct (is_nil _); [discriminate|].
    destruct (lookup _ _); [discriminate|]. intros E. injection E as <-. left. exists s.
    cbn [ps_cur ps_seen ps_sections]. split; [reflexivity|]. split; [reflexivity|]. split; [reflexivity|].
    intros n Hn. rewrite lookup_update. assert (E : text_eqb s n = false) by (apply text_eqb_neq; congruence). now rewrite E.
Qed.

(** Before the section. *)
Definition untouched (p : parser) : Prop :=
  mem section_name (ps_seen p) = false -> lookup section_name (ps_sections p) = None /\ ps_cur p <> Some section_name.
Lemma untouched_step p line p' : read_line p line = POk p' -> untouched p -> untouched p'.
Proof.
  intros E H Hm. apply read_line_cases in E.
  destruct E as [(s & E1 & E2 & E3 & E4)|[(E1 & E2 & E3)|(name & E1 & _ & [(-> & E2 & E3)|(Hd & E2 & E3 & E4)])]].
  - rewrite E3 in Hm. destruct (H Hm) as [H1 H2]. assert (Hs : s <> section_name) by congruence.
    split; [rewrite E4 by congruence; exact H1|congruence].
  - rewrite E2 in Hm. destruct (H Hm) as [H1 H2]. split; congruence.
  - rewrite E2 in Hm. destruct (H Hm) as [H1 H2]. split; [congruence|]. rewrite E1. discriminate.
  - rewrite E3, mem_cons in Hm. apply orb_false_iff in Hm. destruct Hm as [Hn Hm]. apply text_eqb_neq in Hn.
    destruct (H Hm) as [H1 H2]. split; [|congruence]. rewrite E4, lookup_update.
    assert (X : text_eqb name section_name = false) by (apply text_eqb_neq; congruence). now rewrite X.
Qed.

(** After the section. *)
Definition finished (o : options) (p : parser) : Prop :=
  mem section_name (ps_seen p) = true /\ lookup section_name (ps_sections p) = Some o /\ ps_cur p <> Some section_name.
Lemma finished_step o p line p' : read_line p line = POk p' -> finished o p -> finished o p'.
Proof.
  intros E (H1 & H2 & H3). apply read_line_cases in E.
  destruct E as [(s & E1 & E2 & E3 & E4)|[(E1 & E2 & E3)|(name & E1 & _ & [(-> & E2 & E3)|(Hd & E2 & E3 & E4)])]].
  - assert (Hs : s <> section_name) by congruence. unfold finished. rewrite E3, E2, E4 by congruence.
    repeat split; try assumption; congruence.
  - unfold finished. rewrite E1, E2, E3. auto.
  - unfold finished. rewrite E1, E2, E3. repeat split; try assumption. discriminate.
  - assert (Hn : name <> section_name) by congruence. unfold finished. rewrite E1, E3, E4, mem_cons, lookup_update, H1, orb_true_r.
    assert (X : text_eqb name section_name = false) by (apply text_eqb_neq; congruence). rewrite X.
    repeat split; [exact H2|congruence].
Qed.
Lemma lines_invariant (I : parser -> Prop) : (forall p l p', read_line p l = POk p' -> I p -> I p') ->
  forall ls p p', read_lines p ls = POk p' -> I p -> I p'.
Proof.
  intros Hs ls. induction ls as [|l ls IH]; intros p p' E Hp.
  - injection E as <-. exact Hp.
  - cbn [read_lines] in E. destruct (read_line p l) as [q|] eqn:El; [|discriminate]. apply (IH q p' E). now apply (Hs p l q).
Qed.

(** Inside the section: the options read so far. *)
Definition reading (done : list item) (p : parser) : Prop :=
  mem section_name (ps_seen p) = true /\ ps_cur p = Some section_name
  /\ exists o, lookup section_name (ps_sections p) = Some o
     /\ (forall k e v, In (IOpt k e v) done -> exists n, lookup (map lower k) o = Some (v :: repeat [] n))
     /\ (forall name, lookup name o <> None -> exists k e v, In (IOpt k e v) done /\ map lower k = name)
     /\ (forall name, ps_opt p = Some name -> lookup name o <> None).

Lemma repeat_snoc {A} (x : A) n : repeat x n ++ [x] = repeat x (S n).
Proof. induction n as [|n IH]; cbn; [reflexivity|]. f_equal. exact IH. Qed.

Lemma reading_step done i p : item_ok i -> reading done p ->
  match read_line p (item_line i ++ [newline]) with
  | POk p' => reading (done ++ [i]) p'
  | PRaise _ => exists k e v w, i = IOpt k e v /\ sets done (map lower k) w
  end.
Proof.
  intros Hi (H1 & H2 & o & H3 & H4 & H5 & H6). destruct i as [k e v|c|b].
  - rewrite (read_option p section_name k e v Hi H2), H3. cbn [opts].
    destruct (lookup (map lower k) o) as [w|] eqn:El.
    + destruct (H5 (map lower k) ltac:(congruence)) as (k' & e' & v' & Hin & Ek). exists k, e, v, v'. split; [reflexivity|]. now exists k', e'.
    + split; [exact H1|]. split; [reflexivity|]. cbn [ps_sections ps_opt]. exists (o ++ [(map lower k, [v])]).
      rewrite lookup_update, text_eqb_refl, H3. split; [reflexivity|]. split; [|split].
      * intros k' e' v' Hin. rewrite lookup_snoc. apply in_app_iff in Hin. destruct Hin as [Hin|[Hin|[]]].
        -- destruct (H4 k' e' v' Hin) as [n ->]. now exists n.
        -- injection Hin as -> -> ->. rewrite El, text_eqb_refl. now exists 0.
      * intros name. rewrite lookup_snoc. destruct (lookup name o) as [w|] eqn:En.
        -- intros _. destruct (H5 name ltac:(congruence)) as (k' & e' & v' & Hin & Ek). exists k', e', v'. split; [|exact Ek].
           apply in_app_iff. now left.
        -- destruct (text_eqb (map lower k) name) eqn:Ek; [|congruence]. intros _. apply text_eqb_eq in Ek.
           exists k, e, v. split; [|exact Ek]. apply in_app_iff. right. now left.
      * intros name E. injection E as <-. rewrite lookup_snoc, El, text_eqb_refl. discriminate.
  - rewrite read_comment by exact Hi. split; [exact H1|]. split; [exact H2|]. exists o. split; [exact H3|]. split; [|split; [|exact H6]].
    + intros k e v Hin. apply in_app_iff in Hin. destruct Hin as [Hin|[Hin|[]]]; [eauto|discriminate].
    + intros name Hn. destruct (H5 name Hn) as (k & e & v & Hin & Ek). exists k, e, v. split; [|exact Ek]. apply in_app_iff. now left.
  - cbn [item_line]. rewrite read_blank by (eapply Forall_impl; [|exact Hi]; now intros x [Hx _]).
    unfold add_line. rewrite H2.
    assert (D : forall k e v, In (IOpt k e v) (done ++ [IBlank b]) <-> In (IOpt k e v) done).
    { intros k e v. rewrite in_app_iff. split; [intros [H|[H|[]]]; [exact H|discriminate]|auto]. }
    destruct (ps_opt p) as [name|] eqn:Eo.
    + split; [exact H1|]. split; [reflexivity|]. cbn [ps_sections ps_opt].
      eexists. rewrite lookup_update, text_eqb_refl, H3. split; [reflexivity|]. cbn [opts].
      assert (Hx : exists w, lookup name o = Some w).
      { destruct (lookup name o) as [w|] eqn:E; [now exists w|]. now contradiction (H6 name eq_refl). }
      destruct Hx as [w Hw]. split; [|split].
      * intros k e v Hin. apply D in Hin. destruct (H4 k e v Hin) as [n Hn]. rewrite lookup_update.
        destruct (text_eqb name (map lower k)) eqn:E.
        -- apply text_eqb_eq in E. subst name. exists (S n). rewrite Hn. rewrite <- repeat_snoc. reflexivity.
        -- now exists n.
      * intros n Hn. assert (Hn' : lookup n o <> None).
        { rewrite lookup_update in Hn. destruct (text_eqb name n) eqn:E; [|exact Hn]. apply text_eqb_eq in E. congruence. }
        destruct (H5 n Hn') as (k & e & v & Hin & Ek). exists k, e, v. split; [now apply D|exact Ek].
      * intros n E. injection E as <-. rewrite lookup_update, text_eqb_refl. discriminate.
    + split; [exact H1|]. split; [exact H2|]. exists o. split; [exact H3|]. split; [|split].
      * intros k e v Hin. apply D in Hin. eauto.
      * intros n Hn. destruct (H5 n Hn) as (k & e & v & Hin & Ek). exists k, e, v. split; [now apply D|exact Ek].
      * intros n E. congruence.
Qed.

(** * The section within the file *)
Lemma items_lines items after : Forall item_ok items ->
  lines (universal (concat (map (fun i => item_line i ++ [newline]) items) ++ after)) =
  map (fun i => item_line i ++ [newline]) items ++ lines (universal after).
Proof.
  intros H. induction H as [|i items Hi _ IH]; [reflexivity|]. cbn [map concat].
  rewrite <- !app_assoc. cbn [app]. rewrite file_line.
  - now rewrite IH.
  - destruct i as [k e v|c|b]; cbn [item_line].
    + destruct Hi as ((_ & Hk & _) & (x & d & y & -> & Hd & Hx & Hy) & _ & Hv). apply Forall_app. split.
      * eapply Forall_impl; [|exact Hk]. intros c [Hc _]. destruct (is_eol c) eqn:E; [|reflexivity].
        apply orb_true_iff in E. destruct E as [E|E]; apply Ascii.eqb_eq in E; subst c; discriminate.
      * apply Forall_app. split; [|exact Hv]. apply Forall_app. split; [now apply blanks_eol|]. constructor; [|now apply blanks_eol].
        destruct Hd as [-> | ->]; reflexivity.
    + destruct Hi as (x & d & y & -> & Hd & Hx & Hy). apply Forall_app. split; [now apply blanks_eol|]. constructor; [|exact Hy].
      destruct Hd as [-> | ->]; reflexivity.
    + eapply Forall_impl; [|exact Hi]. now intros c [_ Hc].
Qed.

Lemma first_line l r : l <> [] -> Forall (fun c => is_eol c = false) l ->
  exists r1 ls, lines (universal (l ++ r)) = (l ++ r1) :: ls.
Proof.
  intros Hne H. assert (U : universal (l ++ r) = l ++ universal r).
  { clear Hne. induction H as [|c l Hc _ IH]; [reflexivity|]. cbn [app universal].
    unfold is_eol in Hc. apply orb_false_iff in Hc. destruct Hc as [_ Hc]. change (ascii_of_nat 13) with carriage_return in Hc.
    now rewrite Hc, IH. }
  rewrite U. generalize (universal r) as u. clear U r. intros u. revert Hne.
  induction H as [|c l Hc _ IH]; intros Hne; [congruence|]. cbn [app lines].
  assert (En : Ascii.eqb c newline = false) by (unfold is_eol in Hc; apply orb_false_iff in Hc; apply Hc).
  rewrite En. destruct l as [|d l].
  - cbn [app]. destruct (lines u) as [|x ls]; [exists [], []|exists x, ls]; reflexivity.
  - destruct (IH ltac:(discriminate)) as (r1 & ls & E). exists r1, ls. cbn [app] in E |- *. now rewrite E.
Qed.

Lemma read_items items : Forall item_ok items -> forall done p p',
  read_lines p (map (fun i => item_line i ++ [newline]) items) = POk p' -> reading done p -> reading (done ++ items) p'.
Proof.
  intros H. induction H as [|i items Hi _ IH]; intros done p p' E Hp.
  - injection E as <-. now rewrite app_nil_r.
  - cbn [map read_lines] in E. pose proof (reading_step done i p Hi Hp) as S.
    destruct (read_line p _) as [q|]; [|discriminate]. cbn [pbind] in E.
    specialize (IH (done ++ [i]) q p' E S). now rewrite <- app_assoc in IH.
Qed.

Definition holds (items : list item) (p : parser) : Prop :=
  mem section_name (ps_seen p) = true
  /\ exists o, lookup section_name (ps_sections p) = Some o
     /\ (forall k e v, In (IOpt k e v) items -> exists n, lookup (map lower k) o = Some (v :: repeat [] n))
     /\ (forall name, lookup name o <> None -> exists k e v, In (IOpt k e v) items /\ map lower k = name).

Lemma read_after items after p p' : next_section after -> reading items p ->
  read_lines p (lines (universal after)) = POk p' -> holds items p'.
Proof.
  intros Ha (H1 & H2 & o & H3 & H4 & H5 & _) E. destruct Ha as [->|(name & r & -> & Hne & Hn)].
  - injection E as <-. split; [exact H1|]. exists o. auto.
  - destruct (first_line (T "[" ++ name ++ T "]") r) as (r1 & ls & El).
    { discriminate. }
    { apply Forall_app. split; [repeat constructor|]. apply Forall_app. split; [|repeat constructor].
      eapply Forall_impl; [|exact Hn]. now intros c [Hc _]. }
    replace (T "[" ++ name ++ T "]" ++ r) with ((T "[" ++ name ++ T "]") ++ r) in E by now rewrite <- !app_assoc.
    rewrite El in E. cbn [read_lines] in E.
    replace ((T "[" ++ name ++ T "]") ++ r1) with (T "[" ++ name ++ T "]" ++ r1) in E by now rewrite <- !app_assoc.
    destruct (read_line p _) as [q|] eqn:Eq; [|discriminate]. cbn [pbind] in E.
    assert (F : finished o q).
    { rewrite (proj2 (read_header p name r1 Hne ltac:(eapply Forall_impl; [|exact Hn]; now intros c [_ Hc]))) in Eq.
      destruct (text_eqb name (T "DEFAULT")) eqn:Ed.
      - apply text_eqb_eq in Ed. subst name. injection Eq as <-. split; [exact H1|]. split; [exact H3|]. discriminate.
      - destruct (mem name (ps_seen p)) eqn:Em; [discriminate|]. injection Eq as <-.
        assert (Hd : name <> section_name) by (intros ->; congruence).
        unfold finished. cbn [ps_seen ps_sections ps_cur]. rewrite mem_cons, H1, orb_true_r, lookup_update.
        assert (X : text_eqb name section_name = false) by now apply text_eqb_neq. rewrite X.
        split; [reflexivity|]. split; [exact H3|]. congruence. }
    destruct (lines_invariant (finished o) (fun p l p' e => finished_step o p l p' e) ls q p' E F) as (F1 & F2 & _).
    split; [exact F1|]. exists o. auto.
Qed.

Lemma section_lines items after : Forall item_ok items ->
  lines (universal (section items ++ after)) =
  (T "[versioneer]" ++ [newline]) :: map (fun i => item_line i ++ [newline]) items ++ lines (universal after).
Proof.
  intros H. unfold section. rewrite <- app_assoc. cbn [app]. 
  change (T "[versioneer]" ++ newline :: concat (map (fun i => item_line i ++ [newline]) items) ++ after)
    with (T "[versioneer]" ++ newline :: (concat (map (fun i => item_line i ++ [newline]) items) ++ after)).
  rewrite file_line by repeat constructor. now rewrite items_lines.
Qed.

Lemma read_section_header p : untouched p ->
  match read_line p (T "[versioneer]" ++ [newline]) with
  | POk p' => reading [] p'
  | PRaise _ => mem section_name (ps_seen p) = true
  end.
Proof.
  intros Hp. pose proof (proj2 (read_header p section_name [newline] ltac:(discriminate)
    ltac:(repeat constructor; discriminate))) as E.
  change (T "[" ++ section_name ++ T "]" ++ [newline]) with (T "[versioneer]" ++ [newline]) in E. rewrite E.
  change (text_eqb section_name (T "DEFAULT")) with false. cbn iota.
  destruct (mem section_name (ps_seen p)) eqn:Em; [reflexivity|]. destruct (Hp Em) as [H1 H2].
  split; [reflexivity|]. split; [reflexivity|]. cbn [ps_sections ps_opt]. exists [].
  rewrite lookup_update, text_eqb_refl, H1. split; [reflexivity|]. split; [|split].
  - intros k e v [].
  - intros name H. now contradiction H.
  - discriminate.
Qed.

Lemma config_holds before items after p : ends_line before -> Forall item_ok items -> next_section after ->
  read_config (before ++ section items ++ after) = POk p -> holds items p.
Proof.
  intros Hb Hi Ha E. unfold read_config in E.
  rewrite file_lines_app in E; [|exact Hb|discriminate]. rewrite section_lines in E by exact Hi.
  rewrite read_lines_app in E. destruct (read_lines parser0 _) as [p1|] eqn:E1; [|discriminate]. cbn [pbind read_lines] in E.
  assert (U : untouched p1).
  { apply (lines_invariant untouched untouched_step _ _ _ E1). intros _. split; [reflexivity|discriminate]. }
  pose proof (read_section_header p1 U) as H2. destruct (read_line p1 _) as [p2|]; [|discriminate]. cbn [pbind] in E.
  rewrite read_lines_app in E. destruct (read_lines p2 _) as [p3|] eqn:E3; [|discriminate]. cbn [pbind] in E.
  pose proof (read_items items Hi [] p2 p3 E3 H2) as H3. cbn [app] in H3. exact (read_after items after p3 p Ha H3 E).
Qed.

Lemma rstrip_lines v n : unpadded is_space v -> rstrip (join [newline] (v :: repeat [] n)) = v.
Proof.
  intros Hv. assert (E : exists w, Forall (fun c => is_space c = true) w /\ join [newline] (v :: repeat [] n) = v ++ w).
  { revert v Hv. induction n as [|n IH]; intros v Hv; cbn [repeat join].
    - exists []. split; [constructor|]. now rewrite app_nil_r.
    - destruct (IH [] (conj I I)) as (w & Hw & E). exists (newline :: w). split; [constructor; [reflexivity|exact Hw]|].
      change (match repeat [] n with [] => [] | _ :: _ => _ end) with (join [newline] ([] :: repeat [] n)). 
      cbn [join repeat] in E |- *. rewrite E. reflexivity. }
  destruct E as (w & Hw & ->). unfold rstrip. rewrite rev_app_distr.
  assert (L : lstrip_by is_space (rev w ++ rev v) = rev v).
  { apply Forall_rev in Hw. induction Hw as [|c l Hc _ IH]; cbn [app lstrip_by].
    - destruct Hv as [_ Hv]. destruct (rev v) as [|c l]; [reflexivity|]. cbn [lstrip_by]. now rewrite Hv.
    - now rewrite Hc. }
  rewrite L. apply rev_involutive.
Qed.

(** * C87: the settings of the section are read exactly *)

Lemma option_value_holds items p : Forall item_ok items -> holds items p ->
  (forall name v, sets items name v -> option_value p section_name name = Some v)
  /\ (forall name, (forall v, ~ sets items name v) ->
      option_value p section_name name = option_value p (T "DEFAULT") name).
Proof.
  intros Hi (_ & o & H2 & H3 & H4). split.
  - intros name v (k & e & Hin & <-). destruct (H3 k e v Hin) as [n Hn]. unfold option_value. rewrite H2. cbn [opts]. rewrite Hn.
    cbn [option_map]. f_equal. apply rstrip_lines. rewrite Forall_forall in Hi. apply Hi in Hin. apply Hin.
  - intros name Hn. unfold option_value. rewrite H2. cbn [opts]. destruct (lookup name o) as [w|] eqn:E.
    + exfalso. destruct (H4 name ltac:(congruence)) as (k & e & v & Hin & Ek). apply (Hn v). now exists k, e.
    + destruct (lookup name (opts (lookup (T "DEFAULT") (ps_sections p)))); reflexivity.
Qed.

Theorem C87_reads before items after p :
  ends_line before -> Forall item_ok items -> next_section after ->
  read_config (before ++ section items ++ after) = POk p ->
  has_section p section_name = true
  /\ (forall name v, sets items name v -> option_value p section_name name = Some v)
  /\ (forall name, (forall v, ~ sets items name v) ->
      option_value p section_name name = option_value p (T "DEFAULT") name).
Proof.
  intros Hb Hi Ha E. pose proof (config_holds before items after p Hb Hi Ha E) as H.
  split; [apply H|]. now apply option_value_holds.
Qed.
Print Assumptions C87_reads.

(** A file that consists of the section is accepted unless a name is set twice. *)
Fixpoint names (items : list item) : list text :=
  match items with
  | [] => []
  | IOpt k _ _ :: r => map lower k :: names r
  | _ :: r => names r
  end.
Lemma names_app a b : names (a ++ b) = names a ++ names b.
Proof. induction a as [|[] a IH]; cbn [app names]; [reflexivity|now rewrite IH|exact IH|exact IH]. Qed.
Lemma sets_names items name : (exists v, sets items name v) <-> In name (names items).
Proof.
  induction items as [|i items IH]; cbn [names].
  - split; [intros (v & k & e & [] & _)|intros []].
  - destruct i as [k e v|c|b].
    + cbn [In]. rewrite <- IH. split.
      * intros (v' & k' & e' & [E|Hin] & Ek); [injection E as -> -> ->; now left|]. right. exists v', k', e'. auto.
      * intros [E|(v' & k' & e' & Hin & Ek)]; [exists v, k, e|exists v', k', e']; (split; [|assumption]); [now left|now right].
    + rewrite <- IH. split; intros (v' & k' & e' & Hin & Ek); exists v', k', e'; (split; [|exact Ek]); [destruct Hin as [|Hin]; [discriminate|exact Hin]|now right].
    + rewrite <- IH. split; intros (v' & k' & e' & Hin & Ek); exists v', k', e'; (split; [|exact Ek]); [destruct Hin as [|Hin]; [discriminate|exact Hin]|now right].
Qed.
Lemma items_parse items : Forall item_ok items -> forall done p, reading done p -> NoDup (names (done ++ items)) ->
  exists p', read_lines p (map (fun i => item_line i ++ [newline]) items) = POk p'.
Proof.
  intros H. induction H as [|i items Hi _ IH]; intros done p Hp Hd; [now exists p|].
  cbn [map read_lines]. pose proof (reading_step done i p Hi Hp) as S. destruct (read_line p _) as [q|e].
  - cbn [pbind]. apply (IH (done ++ [i]) q S). now rewrite <- app_assoc.
  - exfalso. destruct S as (k & e' & v & w & -> & Hs). rewrite names_app in Hd. cbn [names] in Hd. apply NoDup_remove_2 in Hd.
    apply Hd, in_app_iff. left. apply sets_names. now exists w.
Qed.
Theorem C87_accepts items : Forall item_ok items -> NoDup (names items) ->
  exists p, read_config (section items) = POk p.
Proof.
  intros Hi Hd. unfold read_config. rewrite <- (app_nil_r (section items)), section_lines by exact Hi.
  rewrite app_nil_r. cbn [read_lines].
  pose proof (read_section_header parser0 ltac:(intros _; split; [reflexivity|discriminate])) as H.
  destruct (read_line parser0 _) as [p|]; [|discriminate]. exact (items_parse items Hi [] p H Hd).
Qed.
Print Assumptions C87_accepts.

(** The case of names: [lower] turns the 26 capitals into the small letters in
    their places and leaves every other character alone. *)
Fixpoint place (c : ascii) (l : text) : option nat :=
  match l with
  | [] => None
  | x :: r => if Ascii.eqb x c then Some 0%nat else option_map S (place c r)
  end.
Definition small_letter (c : ascii) : ascii :=
  match place c (T "ABCDEFGHIJKLMNOPQRSTUVWXYZ") with
  | Some n => nth n (T "abcdefghijklmnopqrstuvwxyz") c
  | None => c
  end.
Theorem C87_capitals : forall c, lower c = small_letter c.
Proof. intros [[] [] [] [] [] [] [] []]; vm_compute; reflexivity. Qed.
Print Assumptions C87_capitals.

(** [Tag_Prefix], [TAG_PREFIX], ... set tag_prefix. *)
Theorem C87_any_case before items after p k e v name :
  ends_line before -> Forall item_ok items -> next_section after ->
  read_config (before ++ section items ++ after) = POk p ->
  In (IOpt k e v) items -> map small_letter k = name ->
  option_value p section_name name = Some v.
Proof.
  intros Hb Hi Ha E Hin <-. apply (C87_reads before items after p Hb Hi Ha E). exists k, e. split; [exact Hin|].
  apply map_ext. exact C87_capitals.
Qed.
Print Assumptions C87_any_case.

(** A name set twice is refused, in whatever case the letters are. *)
Lemma reading_names done p : reading done p -> forall k e v, item_ok (IOpt k e v) -> In (map lower k) (names done) ->
  read_line p (item_line (IOpt k e v) ++ [newline]) = PRaise BadConfig.
Proof.
  intros (_ & Hc & o & H3 & H4 & _ & _) k e v Hi Hin. rewrite (read_option p section_name k e v Hi Hc), H3. cbn [opts].
  apply sets_names in Hin. destruct Hin as (w & k' & e' & Hin & <-). destruct (H4 k' e' w Hin) as [n ->]. reflexivity.
Qed.
Theorem C87_twice before a k e v b k' e' v' c after :
  ends_line before -> Forall item_ok (a ++ IOpt k e v :: b ++ IOpt k' e' v' :: c) -> map lower k = map lower k' ->
  exists err, read_config (before ++ section (a ++ IOpt k e v :: b ++ IOpt k' e' v' :: c) ++ after) = PRaise err.
Proof.
  intros Hb Hi Ek. set (items := a ++ IOpt k e v :: b ++ IOpt k' e' v' :: c) in *.
  destruct (read_config _) as [p|err] eqn:E; [exfalso|now exists err]. unfold read_config in E.
  rewrite file_lines_app in E; [|exact Hb|discriminate]. rewrite section_lines in E by exact Hi.
  rewrite read_lines_app in E. destruct (read_lines parser0 _) as [p1|] eqn:E1; [|discriminate]. cbn [pbind read_lines] in E.
  assert (U : untouched p1).
  { apply (lines_invariant untouched untouched_step _ _ _ E1). intros _. split; [reflexivity|discriminate]. }
  pose proof (read_section_header p1 U) as H2. destruct (read_line p1 _) as [p2|]; [|discriminate]. cbn [pbind] in E.
  rewrite read_lines_app in E. destruct (read_lines p2 _) as [p3|] eqn:E3; [|discriminate]. clear E.
  set (d := a ++ IOpt k e v :: b). assert (Ei : items = d ++ IOpt k' e' v' :: c) by (unfold items, d; now rewrite <- app_assoc).
  rewrite Ei in Hi. apply Forall_app in Hi. destruct Hi as [Hd Hi]. rewrite Ei, map_app, read_lines_app in E3.
  destruct (read_lines p2 _) as [p4|] eqn:E4; [|discriminate]. cbn [pbind map read_lines] in E3.
  rewrite (reading_names d p4) in E3; [discriminate|exact (read_items d Hd [] p2 p4 E4 H2)|now apply Forall_inv in Hi|].
  unfold d. rewrite names_app. apply in_app_iff. right. cbn [names]. now left.
Qed.
Print Assumptions C87_twice.

(** * C87: the configuration *)
Definition occurs (m s : text) : Prop := exists a b, s = a ++ m ++ b.
Lemma occurs_cons m c s : occurs m s -> occurs m (c :: s).
Proof. intros (a & b & ->). now exists (c :: a), b. Qed.
Lemma universal_prefix m : Forall (fun c => is_eol c = false) m -> forall s b, universal s = m ++ b -> exists b', s = m ++ b'.
Proof.
  induction 1 as [|c m Hc _ IH]; intros s b E; [now exists s|].
  destruct s as [|d s]; [discriminate|]. cbn [universal app] in E. destruct (Ascii.eqb d carriage_return).
  - exfalso. assert (X : c = newline).
    { destruct s as [|e s]; [now injection E as -> _|]. destruct (Ascii.eqb e newline); now injection E as -> _. }
    subst c. discriminate.
  - injection E as -> E. destruct (IH s b E) as [b' ->]. now exists b'.
Qed.
Lemma universal_occurs m : Forall (fun c => is_eol c = false) m -> m <> [] -> forall s, occurs m (universal s) -> occurs m s.
Proof.
  intros Hm Hne s. remember (length s) as n eqn:En. revert s En. induction n as [n IH] using lt_wf_ind. intros s -> (a & b & E).
  destruct a as [|x a].
  - destruct (universal_prefix m Hm s b E) as [b' ->]. now exists [], b'.
  - destruct s as [|c s]; [discriminate|]. cbn [universal app] in E. destruct (Ascii.eqb c carriage_return).
    + destruct s as [|d s].
      * injection E as _ E. destruct a, m; try discriminate. congruence.
      * destruct (Ascii.eqb d newline); injection E as _ E.
        -- apply occurs_cons, occurs_cons, (IH (length s)); [cbn; lia|reflexivity|]. now exists a, b.
        -- apply occurs_cons, (IH (length (d :: s))); [cbn; lia|reflexivity|]. now exists a, b.
    + injection E as _ E. apply occurs_cons, (IH (length s)); [cbn; lia|reflexivity|]. now exists a, b.
Qed.
Lemma lines_concat s : concat (lines s) = s.
Proof.
  induction s as [|c s IH]; [reflexivity|]. cbn [lines]. destruct (Ascii.eqb c newline) eqn:E.
  - apply Ascii.eqb_eq in E. subst c. cbn [concat app]. now rewrite IH.
  - destruct (lines s) as [|l ls]; cbn [concat app] in *; now rewrite <- IH.
Qed.
Lemma line_occurs m s l : In l (lines s) -> occurs m l -> occurs m s.
Proof.
  intros Hin (a & b & ->). apply in_split in Hin. destruct Hin as (x & y & E). rewrite <- (lines_concat s), E, concat_app.
  cbn [concat]. exists (concat x ++ a), (b ++ concat y). now rewrite <- !app_assoc.
Qed.

(** Without a DEFAULT section there are no default values. *)
Lemma no_default file p : ~ occurs (T "[DEFAULT]") file -> read_config file = POk p ->
  lookup (T "DEFAULT") (ps_sections p) = None.
Proof.
  intros Hn E. assert (L : forall l, In l (lines (universal file)) -> ~ occurs (T "[DEFAULT]") l).
  { intros l Hl Ho. apply Hn, universal_occurs; [repeat constructor|discriminate|]. exact (line_occurs _ _ l Hl Ho). }
  unfold read_config in E. clear Hn.
  assert (G : forall ls q q', (forall l, In l ls -> ~ occurs (T "[DEFAULT]") l) -> read_lines q ls = POk q' ->
     lookup (T "DEFAULT") (ps_sections q) = None /\ ps_cur q <> Some (T "DEFAULT") ->
     lookup (T "DEFAULT") (ps_sections q') = None /\ ps_cur q' <> Some (T "DEFAULT")).
  { clear. induction ls as [|l ls IH]; intros q q' Hl E H; [now injection E as <-|]. cbn [read_lines] in E.
    destruct (read_line q l) as [r|] eqn:Er; [|discriminate]. cbn [pbind] in E. apply (IH r q'); [intros x Hx; apply Hl; now right|exact E|].
    destruct H as [H1 H2]. apply read_line_cases in Er.
    destruct Er as [(s & E1 & E2 & E3 & E4)|[(E1 & E2 & E3)|(name & E1 & (z & Ez) & [(-> & E2 & E3)|(Hd & E2 & E3 & E4)])]].
    - split; [rewrite E4; [exact H1|]|]; congruence.
    - split; congruence.
    - exfalso. apply (Hl l); [now left|]. destruct (strip_split is_space l) as (a & b & El & _).
      change (strip_by is_space l) with (strip l) in El. rewrite Ez in El. exists a, (z ++ b). rewrite El.
      now rewrite <- !app_assoc.
    - split; [|congruence]. rewrite E4, lookup_update.
      assert (X : text_eqb name (T "DEFAULT") = false) by now apply text_eqb_neq. now rewrite X. }
  apply (G _ _ _ L E). split; [reflexivity|discriminate].
Qed.

(** What a setting is; several lines may not set the same name (C87_twice). *)
Definition setting (items : list item) (name : text) (o : option text) : Prop :=
  match o with Some v => sets items name v | None => forall v, ~ sets items name v end.
Lemma setting_dec items name : exists o, setting items name o.
Proof.
  destruct (in_dec (list_eq_dec ascii_dec) name (names items)) as [H|H].
  - apply sets_names in H. destruct H as [v Hv]. now exists (Some v).
  - exists None. intros v Hv. apply H, sets_names. now exists v.
Qed.

(** Values without percent signs are taken as they are; only BadValue is raised
    for others. *)
Lemma interpolate_plain inner values t : has_char "%" t = false -> interpolate_loop inner values (length t) t = POk t.
Proof.
  unfold has_char. induction t as [|c t IH]; [reflexivity|]. cbn [existsb length interpolate_loop]. intros H. apply orb_false_iff in H. destruct H as [H1 H2].
  rewrite Ascii.eqb_sym, H1. cbn [negb]. now rewrite (IH H2).
Qed.
Lemma interpolate_raises values d : forall t y, interpolate values d t = PRaise y -> y = BadValue \/ y = POutOfModel.
Proof.
  induction d as [|d IH]; intros t y; cbn [interpolate]; [intros H; injection H as <-; now left|].
  generalize (length t) as n. intros n. revert t. induction n as [|n IHn]; intros t; cbn [interpolate_loop]; [destruct t; [discriminate|intros H; injection H as <-; now right]|].
  destruct t as [|c r]; [discriminate|]. destruct (negb _).
  { destruct (interpolate_loop _ _ n r) as [v|x] eqn:E; cbn [pbind]; [discriminate|]. intros H. injection H as <-. exact (IHn _ E). }
  destruct r as [|e r]; [intros H; injection H as <-; now left|]. destruct (Ascii.eqb e "%").
  { destruct (interpolate_loop _ _ n r) as [v|x] eqn:E; cbn [pbind]; [discriminate|]. intros H. injection H as <-. exact (IHn _ E). }
  destruct (Ascii.eqb e "("); [|intros H; injection H as <-; now left].
  destruct (span _ r) as [[|x name] [|? [|g after]]]; try (intros H; injection H as <-; now left).
  destruct (Ascii.eqb g "s"); [|intros H; injection H as <-; now left].
  destruct (values _) as [w|]; [|intros H; injection H as <-; now left].
  destruct (if has_char "%" w then interpolate values d w else POk w) as [u|z] eqn:E.
  - cbn [pbind]. destruct (interpolate_loop _ _ n after) as [v|z] eqn:E'; cbn [pbind]; [discriminate|]. intros H. injection H as <-. exact (IHn _ E').
  - cbn [pbind]. intros H. injection H as <-. destruct (has_char "%" w); [exact (IH _ _ E)|discriminate].
Qed.

Section Settings.
Variables (before after : text) (items : list item) (p : parser).
Let file := before ++ section items ++ after.
Hypothesis Hb : ends_line before.
Hypothesis Hi : Forall item_ok items.
Hypothesis Ha : next_section after.
Hypothesis Hd : ~ occurs (T "[DEFAULT]") file.
Hypothesis Hp : read_config file = POk p.
Lemma value_of name o : setting items name o -> option_value p section_name name = o.
Proof.
  intros Hs. destruct (C87_reads before items after p Hb Hi Ha Hp) as (_ & H1 & H2). destruct o as [v|].
  - now apply H1.
  - rewrite H2 by exact Hs. unfold option_value. rewrite (no_default file p Hd Hp). reflexivity.
Qed.
Lemma get_option_of name o : setting items name o -> (forall v, o = Some v -> has_char "%" v = false) ->
  get_option p name = POk o.
Proof.
  intros Hs Ho. unfold get_option. change (T "versioneer") with section_name. rewrite (value_of name o Hs).
  destruct o as [v|]; [|reflexivity]. change (interpolate _ max_depth v) with
    (interpolate_loop (interpolate (option_value p section_name) 9) (option_value p section_name) (length v) v).
  now rewrite interpolate_plain by exact (Ho v eq_refl).
Qed.
End Settings.

(** tag_prefix may be written as a pair of quotes, for the empty prefix. *)
Definition quoted_empty (v : text) : Prop := v = T "''" \/ v = [quote; quote].
Theorem C87_config before items after vcs style source build prefix parent :
  let file := before ++ section items ++ after in
  ends_line before -> Forall item_ok items -> next_section after -> ~ occurs (T "[DEFAULT]") file ->
  (exists p, read_config file = POk p) ->
  (forall name v, sets items name v -> ~ In "%"%char v) ->
  setting items (T "vcs") (Some vcs) -> setting items (T "style") style ->
  setting items (T "versionfile_source") source -> setting items (T "versionfile_build") build ->
  setting items (T "tag_prefix") prefix -> setting items (T "parentdir_prefix") parent ->
  exists c, get_config (Some file) = POk c
  /\ c_VCS c = vcs
  /\ c_style c = match style with Some v => v | None => [] end
  /\ c_source c = source /\ c_build c = build /\ c_parentdir_prefix c = parent
  /\ (match prefix with
      | Some v => (quoted_empty v -> c_tag_prefix c = Some []) /\ (~ quoted_empty v -> c_tag_prefix c = Some v)
      | None => c_tag_prefix c = None
      end).
Proof.
  cbn zeta. set (file := before ++ section items ++ after). intros Hb Hi Ha Hd [p Hp] Hc S1 S2 S3 S4 S5 S6.
  assert (O : forall name o, setting items name o -> get_option p name = POk o).
  { intros name o Hs. apply (get_option_of before after items p Hb Hi Ha Hd Hp name o Hs). intros v ->.
    destruct (has_char "%" v) eqn:E; [|reflexivity]. apply has_char_iff in E. now contradiction (Hc name v Hs). }
  exists (Config vcs (match style with Some v => v | None => [] end) source build (unquoted prefix) parent).
  unfold get_config. rewrite Hp. cbn [pbind].
  assert (Hh : has_section p (T "versioneer") = true) by apply (C87_reads before items after p Hb Hi Ha Hp).
  rewrite Hh. cbn [negb]. rewrite (O _ _ S1), (O _ _ S2), (O _ _ S3), (O _ _ S4), (O _ _ S5), (O _ _ S6).
  destruct (setting_dec items (T "verbose")) as [verbose S7]. rewrite (O _ _ S7). cbn [pbind].
  split; [destruct style; reflexivity|]. cbn [c_VCS c_style c_source c_build c_tag_prefix c_parentdir_prefix].
  repeat split; try reflexivity. destruct prefix as [v|]; [|reflexivity]. unfold unquoted, quoted_empty. split.
  - intros [->| ->]; reflexivity.
  - intros H. destruct (text_eqb v (T "''")) eqn:E1; [apply text_eqb_eq in E1; tauto|].
    destruct (text_eqb v [quote; quote]) eqn:E2; [apply text_eqb_eq in E2; tauto|]. reflexivity.
Qed.
Print Assumptions C87_config.

(** Without VCS the section is refused. *)
Theorem C87_vcs_required before items after :
  let file := before ++ section items ++ after in
  ends_line before -> Forall item_ok items -> next_section after -> ~ occurs (T "[DEFAULT]") file ->
  (exists p, read_config file = POk p) -> (forall v, ~ sets items (T "vcs") v) ->
  get_config (Some file) = PRaise NoOption.
Proof.
  cbn zeta. set (file := before ++ section items ++ after). intros Hb Hi Ha Hd [p Hp] Hn. unfold get_config. rewrite Hp. cbn [pbind].
  assert (Hh : has_section p (T "versioneer") = true) by apply (C87_reads before items after p Hb Hi Ha Hp).
  rewrite Hh. cbn [negb]. rewrite (get_option_of before after items p Hb Hi Ha Hd Hp (T "vcs") None Hn) by discriminate.
  reflexivity.
Qed.
Print Assumptions C87_vcs_required.

(** setup.cfg of the repository: setup.cfg:1-18. *)
Definition repo_setup_cfg : text :=
  unlines
    [""; "# See the docstring in versioneer.py for instructions. Note that you must";
     "# re-run 'versioneer.py setup' after changing this section, and commit the";
     "# resulting files."; ""; "[versioneer]"; "VCS = git"; "style = pep440";
     "versionfile_source = gcs/_version.py"; "versionfile_build = gcs/_version.py"; "tag_prefix = v";
     "parentdir_prefix ="; ""; "[flake8]"; "exclude = "; "    versioneer.py"; "    .eggs";
     "max-line-length = 99"]%string.
Lemma repo_config :
  get_config (Some repo_setup_cfg) =
  POk (Config (T "git") cfg_style (Some cfg_versionfile_source) (Some cfg_versionfile_source) (Some cfg_tag_prefix) (Some [])).
Proof. vm_compute. reflexivity. Qed.

(** A file with comments, a blank line, an upper case name and text around it. *)
Example C87_case :
  let items := [IComment (T "  ; settings"); IOpt (T "VCS") (T " = ") (T "git"); IBlank (T "  "); IOpt (T "Tag_Prefix") (T ":") (T "''");
                IOpt (T "style") (T " =") []] in
  let before := T "[metadata]" ++ newline :: T "name = x" ++ [newline; newline] in
  let after := T "[bdist]" ++ newline :: T "a: b" in
  ends_line before /\ Forall item_ok items /\ next_section after /\ ~ occurs (T "[DEFAULT]") (before ++ section items ++ after)
  /\ (exists p, read_config (before ++ section items ++ after) = POk p)
  /\ sets items (T "vcs") (T "git") /\ sets items (T "tag_prefix") (T "''")
  /\ get_config (Some (before ++ section items ++ after)) = POk (Config (T "git") [] None None (Some []) None).
Proof.
  cbn zeta. split; [right; exists (T "[metadata]" ++ newline :: T "name = x" ++ [newline]), newline; split; reflexivity|].
  split.
  { constructor; [exists (T "  "), ";"%char, (T " settings"); repeat split; try (right; reflexivity); repeat constructor|].
    constructor.
    { split; [repeat split; try discriminate; repeat constructor; discriminate|]. split; [|repeat split; repeat constructor].
      exists (T " "), "="%char, (T " "). repeat split; try (left; reflexivity); repeat constructor. }
    constructor; [repeat constructor|]. constructor.
    { split; [repeat split; try discriminate; repeat constructor; discriminate|]. split; [|repeat split; repeat constructor].
      exists [], ":"%char, []. repeat split; try (right; reflexivity); repeat constructor. }
    constructor; [|constructor].
    split; [repeat split; try discriminate; repeat constructor; discriminate|]. split; [|repeat split; repeat constructor].
    exists (T " "), "="%char, []. repeat split; try (left; reflexivity); repeat constructor. }
  split; [right; exists (T "bdist"), (newline :: T "a: b"); repeat split; [discriminate|repeat constructor; discriminate]|].
  split.
  { intros (a & b & E). assert (In "D"%char (a ++ T "[DEFAULT]" ++ b)).
    { apply in_app_iff. right. right. now left. }
    rewrite <- E in H. vm_compute in H. repeat destruct H as [H|H]; try discriminate; exact H. }
  split; [eexists; vm_compute; reflexivity|].
  split; [exists (T "VCS"), (T " = "); split; [right; now left|reflexivity]|].
  split; [exists (T "Tag_Prefix"), (T ":"); split; [do 3 right; now left|reflexivity]|]. vm_compute. reflexivity.
Qed.

(** * C88: [versioneer.py setup] with a setup.cfg that is not complete *)

(** setup.cfg is only ever appended to, and only when the section is missing. *)
Theorem C88_appends template cfg t cfg' t' r :
  versioneer_setup template cfg t = (cfg', t', r) ->
  cfg' = cfg
  \/ (cfg' = Some (contents cfg ++ sample_config) /\ t' = t /\ r = POk 1
      /\ (cfg = None \/ exists c p, cfg = Some c /\ read_config c = POk p /\ has_section p section_name = false)).
Proof.
  unfold versioneer_setup. destruct (get_config cfg) as [c|e] eqn:E.
  - destruct (c_source c) as [[|x source]|]; [| |]; try (intros H; injection H as <- _ _; now left).
    destruct (text_eqb (c_VCS c) (T "git")); intros H; injection H as <- _ _; now left.
  - assert (G : e = NoSuchFile \/ e = NoSection -> cfg = None \/ exists c p, cfg = Some c /\ read_config c = POk p
        /\ has_section p section_name = false).
    { intros He. destruct cfg as [c|]; [right|now left]. cbn [get_config] in E.
      assert (NF : forall ls p e, read_lines p ls = PRaise e -> e = BadConfig).
      { clear. induction ls as [|l ls IH]; intros p e; cbn [read_lines]; [discriminate|].
        destruct (read_line p l) as [q|x] eqn:El; cbn [pbind]; [apply IH|]. intros H. injection H as <-.
        unfold read_line in El. destruct (is_comment l); [discriminate|]. destruct (strip l); [discriminate|].
        destruct (_ && _); [discriminate|]. destruct (header _).
        - destruct (text_eqb _ _); [discriminate|]. destruct (mem _ _); congruence.
        - destruct (ps_cur p); [|congruence]. destruct (span _ _) as [? []]; [congruence|]. destruct (is_nil _); [congruence|].
          destruct (lookup _ _); congruence. }
      destruct (read_config c) as [p|x] eqn:Er; [exists c, p; split; [reflexivity|]; split; [exact Er|]|].
      - cbn [pbind] in E. change (T "versioneer") with section_name in E. destruct (has_section p section_name); [|reflexivity].
        cbn [negb] in E. exfalso.
        assert (O : forall n y, get_option p n = PRaise y -> y = BadValue \/ y = POutOfModel).
        { intros n y. unfold get_option. destruct (option_value _ _ _) as [v|]; [|discriminate].
          destruct (interpolate _ _ v) as [w|x] eqn:Ei; cbn [pbind]; [discriminate|]. intros H. injection H as <-.
          exact (interpolate_raises _ _ _ _ Ei). }
        Ltac next O := match goal with H : pbind (get_option ?p ?n) _ = PRaise _ |- _ =>
          destruct (get_option p n) eqn:?; cbn [pbind] in H end.
        next O; [|match goal with H : get_option _ _ = _ |- _ => apply O in H end; injection E as <-; intuition congruence].
        destruct a; [|injection E as <-; destruct He; discriminate].
        repeat (next O; [|match goal with H : get_option _ _ = _ |- _ => apply O in H end; injection E as <-; intuition congruence]).
        discriminate.
      - apply NF in Er. subst x. cbn [pbind] in E. injection E as <-. destruct He; discriminate. }
    destruct e; intros H; injection H as <- <- <-; try (now left); right; (split; [reflexivity|]); (split; [reflexivity|]);
      (split; [reflexivity|]); apply G; [now left|now right].
Qed.
Print Assumptions C88_appends.

(** ** Appending to a file whose last line may be unfinished *)
Lemma lines_snoc u :
  lines (u ++ [newline]) = lines u ++ [[newline]]
  \/ exists ls l, lines u = ls ++ [l] /\ lines (u ++ [newline]) = ls ++ [l ++ [newline]].
Proof.
  induction u as [|c u IH]; cbn [app lines].
  - left. now rewrite Ascii.eqb_refl.
  - destruct (Ascii.eqb c newline).
    + destruct IH as [->|(ls & l & -> & ->)]; [now left|]. right. exists ([newline] :: ls), l. split; reflexivity.
    + destruct u as [|d u].
      * cbn [app lines]. rewrite Ascii.eqb_refl. right. exists [], [c]. split; reflexivity.
      * destruct IH as [->|(ls & l & -> & ->)].
        -- left. destruct (lines (d :: u)) as [|x xs] eqn:E; [|reflexivity].
           exfalso. cbn [lines] in E. destruct (Ascii.eqb d newline); [discriminate|]. destruct (lines u); discriminate.
        -- right. destruct ls as [|x ls]; cbn [app]; [exists [], (c :: l)|exists ((c :: x) :: ls), l]; split; reflexivity.
Qed.
Lemma read_line_newline p l : read_line p (l ++ [newline]) = read_line p l.
Proof.
  assert (Es : strip (l ++ [newline]) = strip l) by (apply strip_snoc; reflexivity).
  unfold read_line, is_comment. rewrite Es. destruct (strip l) as [|c v] eqn:E; [reflexivity|].
  assert (Ei : indent_of (l ++ [newline]) = indent_of l).
  { unfold indent_of. f_equal. destruct (span is_space l) as [a [|x q]] eqn:Ep.
    - exfalso. apply span_spec in Ep. destruct Ep as [-> Ha]. rewrite app_nil_r in E.
      unfold strip in E. pose proof (strip_by_pad is_space a [] [] Ha ltac:(constructor) (conj I I)) as X.
      cbn [app] in X. rewrite app_nil_r in X. congruence.
    - pose proof (span_stop _ _ _ _ _ Ep) as Hx. apply span_spec in Ep. destruct Ep as [-> Ha]. rewrite <- app_assoc.
      cbn [app]. now rewrite span_app. }
  now rewrite Ei.
Qed.
Lemma universal_app c r :
  universal (c ++ newline :: r) = universal c ++ newline :: universal r
  \/ (exists u, universal c = u ++ [newline]) /\ universal (c ++ newline :: r) = universal c ++ universal r.
Proof.
  remember (length c) as n eqn:En. revert c En. induction n as [n IH] using lt_wf_ind. intros c ->.
  assert (K : forall x, (universal (x ++ newline :: r) = universal x ++ newline :: universal r
      \/ (exists u, universal x = u ++ [newline]) /\ universal (x ++ newline :: r) = universal x ++ universal r) ->
      forall d, (d :: universal (x ++ newline :: r) = (d :: universal x) ++ newline :: universal r
      \/ (exists u, d :: universal x = u ++ [newline]) /\ d :: universal (x ++ newline :: r) = (d :: universal x) ++ universal r)).
  { intros x [H|[[u Hu] H]] d; rewrite H; [now left|right]. split; [exists (d :: u); now rewrite Hu|reflexivity]. }
  destruct c as [|c s]; [left; cbn [app universal]; now rewrite newline_ne_cr|].
  cbn [app universal]. destruct (Ascii.eqb c carriage_return).
  - destruct s as [|d s].
    + cbn [app]. rewrite Ascii.eqb_refl. right. split; [now exists []|reflexivity].
    + cbn [app]. destruct (Ascii.eqb d newline).
      * apply K, (IH (length s)); [cbn; lia|reflexivity].
      * apply (K (d :: s)), (IH (length (d :: s))); [cbn; lia|reflexivity].
  - apply K, (IH (length s)); [cbn; lia|reflexivity].
Qed.
Lemma read_appended c r p : read_config c = POk p ->
  exists p1, (p1 = p \/ p1 = add_line p []) /\ read_config (c ++ newline :: r) = read_lines p1 (lines (universal r)).
Proof.
  intros E. unfold read_config in *.
  assert (B : read_lines p [[newline]] = POk (add_line p [])).
  { cbn [read_lines]. pose proof (read_blank p [] ltac:(constructor)) as B. cbn [app] in B. now rewrite B. }
  destruct (universal_app c r) as [->|[[u Hu] ->]].
  - rewrite lines_app, read_lines_app. destruct (lines_snoc (universal c)) as [->|(ls & l & E1 & ->)].
    + rewrite read_lines_app, E. cbn [pbind]. rewrite B. cbn [pbind]. exists (add_line p []). auto.
    + rewrite E1, read_lines_app in E. rewrite read_lines_app. destruct (read_lines parser0 ls) as [q|]; [|discriminate].
      cbn [pbind read_lines] in E |- *. rewrite read_line_newline. destruct (read_line q l) as [q'|]; [|discriminate].
      cbn [pbind] in *. injection E as ->. exists p. auto.
  - rewrite Hu in *. rewrite <- app_assoc. cbn [app]. rewrite lines_app, read_lines_app, E. cbn [pbind]. exists p. auto.
Qed.

(** The sample is a section without settings. *)
Definition sample_head : text :=
  unlines
    ["# See the docstring in versioneer.py for instructions. Note that you must";
     "# re-run 'versioneer.py setup' after changing this section, and commit the";
     "# resulting files."; ""]%string.
Definition sample_items : list item :=
  [IComment (T "#VCS = git"); IComment (T "#style = pep440"); IComment (T "#versionfile_source =");
   IComment (T "#versionfile_build ="); IComment (T "#tag_prefix ="); IComment (T "#parentdir_prefix ="); IBlank []].
Lemma sample_is : sample_config = newline :: sample_head ++ section sample_items.
Proof. vm_compute. reflexivity. Qed.
Lemma hash_comment c : Forall (fun c => is_eol c = false) c -> comment (T "#" ++ c).
Proof. intros H. exists [], "#"%char, c. repeat split; [now left|constructor|exact H]. Qed.
Lemma sample_ok : Forall item_ok sample_items.
Proof. repeat (constructor; [cbn [item_ok]; first [apply hash_comment; repeat constructor|constructor]|]). constructor. Qed.
Lemma add_line_seen p l : ps_seen (add_line p l) = ps_seen p.
Proof. unfold add_line. destruct (ps_cur p); [destruct (ps_opt p)|]; reflexivity. Qed.
Lemma sample_head_read p : read_lines p (lines (universal sample_head)) = POk (add_line p []).
Proof.
  assert (E : lines (universal sample_head) =
    map (fun i => item_line i ++ [newline])
      [IComment (T "# See the docstring in versioneer.py for instructions. Note that you must");
       IComment (T "# re-run 'versioneer.py setup' after changing this section, and commit the");
       IComment (T "# resulting files."); IBlank []]) by (vm_compute; reflexivity).
  rewrite E. cbn [map read_lines]. rewrite read_comment by (apply hash_comment; repeat constructor). cbn [pbind].
  do 2 (rewrite read_comment by (apply hash_comment; repeat constructor); cbn [pbind]). cbn [item_line].
  rewrite read_blank by constructor. reflexivity.
Qed.

Lemma sample_parses c p : read_config c = POk p -> has_section p section_name = false ->
  exists q, read_config (c ++ sample_config) = POk q.
Proof.
  intros E Hs. rewrite sample_is.
  destruct (read_appended c (sample_head ++ section sample_items) p E) as (p1 & Hp1 & ->).
  assert (U : untouched p).
  { apply (lines_invariant untouched untouched_step _ _ _ E). intros _. split; [reflexivity|discriminate]. }
  assert (A : forall q, untouched q -> untouched (add_line q [])).
  { intros q. apply (untouched_step q [newline]). exact (read_blank q [] ltac:(constructor)). }
  rewrite file_lines_app; [|right; exists (removelast sample_head), newline; split; [vm_compute; reflexivity|reflexivity]|discriminate].
  rewrite read_lines_app, sample_head_read. cbn [pbind]. set (p2 := add_line p1 []).
  assert (S2 : mem section_name (ps_seen p2) = false /\ untouched p2).
  { unfold p2. rewrite add_line_seen. destruct Hp1 as [->| ->]; [|rewrite add_line_seen]; split; auto. }
  destruct S2 as [S2 U2]. rewrite <- (app_nil_r (section sample_items)), section_lines by exact sample_ok. rewrite app_nil_r.
  cbn [read_lines]. pose proof (read_section_header p2 U2) as H. destruct (read_line p2 _) as [p3|]; [|congruence]. cbn [pbind].
  apply (items_parse sample_items sample_ok [] p3 H). constructor.
Qed.

Lemma occurs_split m a b : Forall (fun c => is_eol c = false) m -> occurs m (a ++ newline :: b) -> occurs m a \/ occurs m b.
Proof.
  intros Hm (x & y & E). revert x E. induction a as [|c a IH]; intros x E.
  - destruct x as [|d x]; cbn [app] in E.
    + destruct m as [|d m]; [right; now exists [], b|]. injection E as <- _. apply Forall_inv in Hm. discriminate.
    + injection E as _ E. right. now exists x, y.
  - destruct x as [|d x]; cbn [app] in E.
    + left. assert (P : forall w y, w ++ newline :: b = m ++ y -> exists z, w = m ++ z).
      { clear y E IH. intros w. revert w. induction Hm as [|d m Hd _ IHm]; intros w y E; [now exists w|].
        destruct w as [|e w]; cbn [app] in E; [injection E as <- _; discriminate Hd|]. injection E as -> E.
        destruct (IHm w y E) as [z ->]. now exists z. }
      destruct (P (c :: a) y E) as [z ->]. now exists [], z.
    + injection E as _ E. destruct (IH x E) as [H|H]; [left; now apply occurs_cons|now right].
Qed.

(** Once the sample is there a second run changes nothing: setup.cfg does not
    grow and the tree stays as it is, until someone fills in the settings. *)
Theorem C88_sample_once template cfg t cfg' t' r :
  versioneer_setup template cfg t = (cfg', t', r) -> cfg' <> cfg -> ~ occurs (T "[DEFAULT]") (contents cfg) ->
  forall template' u, versioneer_setup template' cfg' u = (cfg', u, POk 1).
Proof.
  intros E Hne Hd template' u. destruct (C88_appends _ _ _ _ _ _ E) as [H|(-> & _ & _ & H)]; [congruence|].
  set (c := contents cfg) in *.
  assert (P : exists q, read_config (c ++ sample_config) = POk q).
  { destruct H as [->|(c0 & p & -> & Hr & Hs)].
    - apply (sample_parses [] parser0); reflexivity.
    - exact (sample_parses c0 p Hr Hs). }
  assert (F : c ++ sample_config = (c ++ newline :: sample_head) ++ section sample_items ++ []).
  { rewrite sample_is, app_nil_r, <- !app_assoc. reflexivity. }
  unfold versioneer_setup. rewrite F in P |- *. rewrite C87_vcs_required; [reflexivity| | | | |exact P|].
  - right. exists (c ++ newline :: removelast sample_head), newline. split; [|reflexivity]. rewrite <- app_assoc.
    f_equal.
  - exact sample_ok.
  - now left.
  - rewrite <- F, sample_is. intros O. apply occurs_split in O; [|repeat constructor]. destruct O as [O|(a & b & O)]; [now apply Hd|].
    assert (In "D"%char (a ++ T "[DEFAULT]" ++ b)) by (apply in_app_iff; right; right; now left).
    rewrite <- O in H0. vm_compute in H0. repeat destruct H0 as [H0|H0]; try discriminate; exact H0.
  - intros v (k & e & Hin & _). cbn in Hin. repeat destruct Hin as [Hin|Hin]; try discriminate; exact Hin.
Qed.
Print Assumptions C88_sample_once.

(** setup.cfg grows at most once, whatever it contains: after any run, the next
    run leaves it alone (a DEFAULT section may supply the settings; then the next
    run sets up the tree). *)
Theorem C88_grows_once template cfg t cfg' t' r :
  versioneer_setup template cfg t = (cfg', t', r) ->
  forall template' u cfg'' u' r', versioneer_setup template' cfg' u = (cfg'', u', r') -> cfg'' = cfg'.
Proof.
  intros E template' u cfg'' u' r' E2.
  destruct (C88_appends _ _ _ _ _ _ E2) as [H|(-> & _ & _ & [->|(c & p & -> & Hr & Hs)])]; [exact H| |]; exfalso.
  - destruct (C88_appends _ _ _ _ _ _ E) as [<-|(H & _)]; [|discriminate]. now injection E.
  - destruct (C88_appends _ _ _ _ _ _ E) as [<-|(H & _ & _ & _)].
    + unfold versioneer_setup, get_config in E. rewrite Hr in E. cbn [pbind] in E.
      change (T "versioneer") with section_name in E. rewrite Hs in E. cbn [negb] in E.
      injection E as E _ _. rewrite <- (app_nil_r c) in E at 2. apply app_inv_head in E. discriminate.
    + injection H as ->. set (c := contents cfg) in *.
      assert (F : c ++ sample_config = (c ++ newline :: sample_head) ++ section sample_items ++ []).
      { rewrite sample_is, app_nil_r, <- !app_assoc. reflexivity. }
      rewrite F in Hr. edestruct C87_reads with (4 := Hr) as [X _]; [| | |congruence].
      * right. exists (c ++ newline :: removelast sample_head), newline. split; [|reflexivity]. rewrite <- app_assoc. f_equal.
      * exact sample_ok.
      * now left.
Qed.
Print Assumptions C88_grows_once.

Example C88_default_case t :
  let cfg := T "[DEFAULT]" ++ newline :: T "vcs = git" ++ newline :: T "versionfile_source = a.py" ++ [newline] in
  versioneer_setup (fun _ => []) (Some cfg) t = (Some (cfg ++ sample_config), t, POk 1)
  /\ versioneer_setup (fun _ => []) (Some (cfg ++ sample_config)) t
     = (Some (cfg ++ sample_config), do_setup [] (T "a.py") t, POk 0).
Proof.
  intros cfg. assert (E : get_config (Some cfg) = PRaise NoSection) by (vm_compute; reflexivity).
  assert (E2 : get_config (Some (cfg ++ sample_config)) = POk (Config (T "git") [] (Some (T "a.py")) None None None)) by (vm_compute; reflexivity).
  unfold versioneer_setup. rewrite E, E2. split; reflexivity.
Qed.

(** Files of the package change only when the set-up succeeds, as long as the VCS
    is git. *)
Theorem C88_all_or_nothing_partial template cfg t cfg' t' r :
  (forall c, get_config cfg = POk c -> c_VCS c = T "git") ->
  versioneer_setup template cfg t = (cfg', t', r) -> r <> POk 0 -> t' = t.
Proof.
  intros Hv. unfold versioneer_setup. destruct (get_config cfg) as [c|e].
  - destruct (c_source c) as [[|x s]|]; try (intros H; now injection H as _ <- _). rewrite (Hv c eq_refl).
    rewrite text_eqb_refl. intros H. injection H as _ _ <-. congruence.
  - destruct e; intros H; now injection H as _ <- _.
Qed.
Print Assumptions C88_all_or_nothing_partial.

(** With another VCS the version file is emptied and KeyError is raised. *)
Theorem C88_all_or_nothing_refuted template t :
  exists cfg, versioneer_setup template (Some cfg) t =
    (Some cfg, Tree (Some []) (init_py t) (manifest_in t) (gitattributes t), PRaise PKeyError).
Proof.
  exists (section [IOpt (T "VCS") (T " = ") (T "svn"); IOpt (T "versionfile_source") (T " = ") (T "gcs/_version.py")]).
  unfold versioneer_setup.
  assert (E : get_config (Some (section [IOpt (T "VCS") (T " = ") (T "svn"); IOpt (T "versionfile_source") (T " = ") (T "gcs/_version.py")])) =
    POk (Config (T "svn") [] (Some (T "gcs/_version.py")) None None None)) by (vm_compute; reflexivity).
  rewrite E. reflexivity.
Qed.
Print Assumptions C88_all_or_nothing_refuted.

(** Success means that the settings were there and the tree was set up with them. *)
Theorem C88_success template cfg t cfg' t' :
  versioneer_setup template cfg t = (cfg', t', POk 0) ->
  cfg' = cfg /\ exists c source, get_config cfg = POk c /\ c_VCS c = T "git" /\ c_source c = Some source /\ source <> []
    /\ t' = do_setup (template c) source t.
Proof.
  unfold versioneer_setup. destruct (get_config cfg) as [c|e].
  - destruct (c_source c) as [[|x s]|] eqn:Es; try discriminate. destruct (text_eqb (c_VCS c) (T "git")) eqn:Ev; [|discriminate].
    apply text_eqb_eq in Ev. intros H. injection H as <- <-. split; [reflexivity|]. exists c, (x :: s).
    repeat split; try assumption; discriminate.
  - destruct e; discriminate.
Qed.
Print Assumptions C88_success.

Example C88_case t :
  let cfg := T "[flake8]" ++ newline :: T "a = b" in
  versioneer_setup (fun _ => []) (Some cfg) t = (Some (cfg ++ sample_config), t, POk 1)
  /\ Some (cfg ++ sample_config) <> Some cfg /\ ~ occurs (T "[DEFAULT]") cfg
  /\ versioneer_setup (fun _ => []) (Some repo_setup_cfg) t =
     (Some repo_setup_cfg, do_setup [] (T "gcs/_version.py") t, POk 0).
Proof.
  cbn zeta. split.
  { unfold versioneer_setup. assert (E : get_config (Some (T "[flake8]" ++ newline :: T "a = b")) = PRaise NoSection)
      by (vm_compute; reflexivity). rewrite E. reflexivity. }
  split; [discriminate|]. split.
  { intros (a & b & E). assert (In "D"%char (a ++ T "[DEFAULT]" ++ b)) by (apply in_app_iff; right; right; now left).
    rewrite <- E in H. vm_compute in H. repeat destruct H as [H|H]; try discriminate; exact H. }
  unfold versioneer_setup. rewrite repo_config. reflexivity.
Qed.

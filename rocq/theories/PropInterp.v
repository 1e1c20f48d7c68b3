(** C92: percent signs and references in setup.cfg. *)
From Coq Require Import String Ascii Bool Arith Lia List.
From Verif Require Import Version VersionFacts Versioneer Setup PropSetup Project PropConfig.
Import ListNotations.
Open Scope list_scope.

(** * Specification: what a value with percent signs means *)

(** A value is put together from plain text, doubled percent signs and
    references %(name)s to other options. *)
Inductive piece := Plain (t : text) | Percent | Reference (name : text).
Definition written (p : piece) : text :=
  match p with
  | Plain t => t
  | Percent => T "%%"
  | Reference name => T "%(" ++ name ++ T ")s"
  end.
Definition piece_ok (p : piece) : Prop :=
  match p with
  | Plain t => ~ In "%"%char t
  | Percent => True
  | Reference name => name <> [] /\ ~ In ")"%char name
  end.

(** [means sets n t v]: with the options [sets], [t] means [v], and following the
    references takes at most [n] steps. *)
Fixpoint means (sets : text -> text -> Prop) (n : nat) (t v : text) : Prop :=
  match n with
  | O => ~ In "%"%char t /\ v = t
  | S n =>
      exists ps vs, t = concat (map written ps) /\ Forall piece_ok ps /\ v = concat vs
      /\ Forall2 (fun p u => match p with
                             | Plain t => u = t
                             | Percent => u = T "%"
                             | Reference name => exists w, sets (map small_letter name) w /\ means sets n w u
                             end) ps vs
  end.

(** * The loop of configparser *)
Lemma small_letters l : map small_letter l = map lower l.
Proof. apply map_ext. intros c. symmetry. apply C87_capitals. Qed.
Lemma has_percent t : has_char "%" t = false <-> ~ In "%"%char t.
Proof.
  destruct (has_char "%" t) eqn:E; split; try easy.
  - intros H. destruct H. now apply has_char_iff.
  - intros _ H. apply has_char_iff in H. congruence.
Qed.

Section Loop.
Variable inner : text -> pres text.
Variable values : text -> option text.
Definition deeper (w : text) : pres text := if has_char "%" w then inner w else POk w.
Definition stands (p : piece) (u : text) : Prop :=
  match p with
  | Plain t => u = t
  | Percent => u = T "%"
  | Reference name => exists w, values (map lower name) = Some w /\ deeper w = POk u
  end.

Lemma span_name name r : ~ In ")"%char name ->
  span (fun x => negb (Ascii.eqb x ")")) (name ++ ")"%char :: r) = (name, ")"%char :: r).
Proof.
  induction name as [|c name IH]; intros H; [reflexivity|]. cbn [app span].
  destruct (Ascii.eqb c ")") eqn:E; [apply Ascii.eqb_eq in E; subst; now elim H; left|]. cbn [negb].
  rewrite IH; [reflexivity|]. intros X. apply H. now right.
Qed.
Lemma span_split f t : forall a b, span f t = (a, b) -> t = a ++ b /\ Forall (fun c => f c = true) a
  /\ match b with [] => True | c :: _ => f c = false end.
Proof.
  induction t as [|c t IH]; intros a b; cbn [span].
  - intros E. injection E as <- <-. repeat split. constructor.
  - destruct (f c) eqn:Ef.
    + destruct (span f t) as [x y] eqn:E. intros H. injection H as <- <-. destruct (IH x y eq_refl) as (-> & H1 & H2).
      repeat split; auto.
    + intros H. injection H as <- <-. repeat split; auto.
Qed.

Lemma loop_pieces ps : Forall piece_ok ps -> forall n, length (concat (map written ps)) <= n ->
  (forall v, interpolate_loop inner values n (concat (map written ps)) = POk v ->
     exists vs, v = concat vs /\ Forall2 stands ps vs)
  /\ (forall vs, Forall2 stands ps vs -> interpolate_loop inner values n (concat (map written ps)) = POk (concat vs)).
Proof.
  induction 1 as [|p ps Hp _ IH]; intros n Hn.
  - cbn [map concat]. assert (E : interpolate_loop inner values n [] = POk []) by (destruct n; reflexivity). rewrite E. split.
    + intros v H. injection H as <-. exists []. split; [reflexivity|constructor].
    + intros vs H. inversion H. reflexivity.
  - cbn [map concat] in *. destruct p as [t| |name]; cbn [written piece_ok] in *.
    + revert n Hn. induction t as [|c t IHt]; intros n Hn.
      * cbn [app] in *. destruct (IH n Hn) as [A B]. split.
        -- intros v Hv. destruct (A v Hv) as (vs & -> & Hs). exists ([] :: vs). split; [reflexivity|]. now constructor.
        -- intros vs Hs. inversion Hs as [|? u ? vs' Hu Hr]; subst. cbn in Hu. subst u. cbn [concat app]. now apply B.
      * cbn [app] in *. destruct n as [|n]; [cbn in Hn; lia|]. cbn [interpolate_loop].
        destruct (Ascii.eqb c "%") eqn:Ec; [apply Ascii.eqb_eq in Ec; subst; now elim Hp; left|]. cbn [negb].
        destruct (IHt ltac:(intros X; apply Hp; now right) n ltac:(cbn in Hn; lia)) as [A B]. split.
        -- intros v Hv. destruct (interpolate_loop _ _ n _) as [w|]; [|discriminate]. cbn [pbind] in Hv. injection Hv as <-.
           destruct (A w eq_refl) as (vs & -> & Hs). inversion Hs as [|? u ? vs' Hu Hr]; subst. cbn in Hu. subst u.
           exists ((c :: t) :: vs'). split; [reflexivity|]. now constructor.
        -- intros vs Hs. inversion Hs as [|? u ? vs' Hu Hr]; subst. cbn in Hu. subst u.
           rewrite (B (t :: vs')) by now constructor. reflexivity.
    + cbn [T list_ascii_of_string app] in *. destruct n as [|n]; [cbn in Hn; lia|]. cbn [interpolate_loop]. cbn [Ascii.eqb Bool.eqb negb].
      destruct (IH n ltac:(cbn in Hn; lia)) as [A B]. split.
      * intros v Hv. destruct (interpolate_loop _ _ n _) as [w|]; [|discriminate]. cbn [pbind] in Hv. injection Hv as <-.
        destruct (A w eq_refl) as (vs & -> & Hs). exists (T "%" :: vs). split; [reflexivity|]. now constructor.
      * intros vs Hs. inversion Hs as [|? u ? vs' Hu Hr]; subst. cbn in Hu. subst u. rewrite (B vs' Hr). reflexivity.
    + destruct Hp as [Hne Hp]. destruct n as [|n]; [cbn in Hn; lia|].
      assert (Hl : length (concat (map written ps)) <= n) by (rewrite !app_length in Hn; cbn in Hn; lia).
      destruct (IH n Hl) as [A B].
      assert (E : interpolate_loop inner values (S n) ((T "%(" ++ name ++ T ")s") ++ concat (map written ps))
        = match values (map lower name) with
          | None => PRaise BadValue
          | Some w => pbind (deeper w) (fun u => pbind (interpolate_loop inner values n (concat (map written ps))) (fun v => POk (u ++ v)))
          end).
      { rewrite <- !app_assoc. cbn [T list_ascii_of_string app interpolate_loop]. cbn [Ascii.eqb Bool.eqb negb].
        rewrite span_name by exact Hp. destruct name as [|x name]; [congruence|]. cbn [Ascii.eqb Bool.eqb]. reflexivity. }
      rewrite E. split.
      * intros v Hv. destruct (values (map lower name)) as [w|] eqn:Ev; [|discriminate]. destruct (deeper w) as [u|] eqn:Eu; [|discriminate].
        cbn [pbind] in Hv. destruct (interpolate_loop _ _ n _) as [y|]; [|discriminate]. cbn [pbind] in Hv. injection Hv as <-.
        destruct (A y eq_refl) as (vs & -> & Hs). exists (u :: vs). split; [reflexivity|]. constructor; [|exact Hs]. now exists w.
      * intros vs Hs. inversion Hs as [|? u ? vs' Hu Hr]; subst. destruct Hu as (w & Ev & Eu). rewrite Ev, Eu. cbn [pbind].
        rewrite (B vs' Hr). reflexivity.
Qed.

(** A text the loop accepts consists of pieces. *)
Lemma loop_written n : forall t v, interpolate_loop inner values n t = POk v ->
  exists ps, t = concat (map written ps) /\ Forall piece_ok ps.
Proof.
  induction n as [|n IH]; intros t v; cbn [interpolate_loop].
  - destruct t; [|discriminate]. intros _. exists []. split; [reflexivity|constructor].
  - destruct t as [|c r]; [intros _; exists []; split; [reflexivity|constructor]|].
    destruct (Ascii.eqb c "%") eqn:Ec; cbn [negb].
    + apply Ascii.eqb_eq in Ec. subst c. destruct r as [|d r]; [discriminate|]. destruct (Ascii.eqb d "%") eqn:Ed.
      * apply Ascii.eqb_eq in Ed. subst d. destruct (interpolate_loop _ _ n r) as [w|] eqn:E; [|discriminate]. intros _.
        destruct (IH _ _ E) as (ps & -> & Hs). exists (Percent :: ps). split; [reflexivity|]. now constructor.
      * destruct (Ascii.eqb d "(") eqn:Ed2; [|discriminate]. apply Ascii.eqb_eq in Ed2. subst d.
        destruct (span _ r) as [a b] eqn:Es. apply span_split in Es. destruct Es as (-> & Ha & Hb).
        destruct a as [|x name]; [discriminate|]. destruct b as [|y [|e after]]; try discriminate.
        destruct (Ascii.eqb e "s") eqn:Ee; [|discriminate]. apply Ascii.eqb_eq in Ee. subst e.
        destruct (values _) as [w|]; [|discriminate].
        destruct (if has_char "%" w then inner w else POk w) as [u|]; [|discriminate]. cbn [pbind].
        destruct (interpolate_loop _ _ n after) as [z|] eqn:E; [|discriminate]. intros _.
        destruct (IH _ _ E) as (ps & -> & Hs). exists (Reference (x :: name) :: ps).
        destruct (Ascii.eqb y ")") eqn:Ey; [|discriminate]. apply Ascii.eqb_eq in Ey. subst y. split.
        -- cbn [map concat written]. rewrite <- !app_assoc. reflexivity.
        -- constructor; [|exact Hs]. split; [discriminate|]. intros Hin. rewrite Forall_forall in Ha. apply Ha in Hin. discriminate.
    + destruct (interpolate_loop _ _ n r) as [w|] eqn:E; [|discriminate]. intros _. destruct (IH _ _ E) as (ps & -> & Hs).
      exists (Plain [c] :: ps). split; [reflexivity|]. constructor; [|exact Hs]. intros [X|[]]. subst c. discriminate.
Qed.

(** The fuel suffices. *)
Lemma loop_fuel : (forall t, inner t <> PRaise POutOfModel) ->
  forall n t, length t <= n -> interpolate_loop inner values n t <> PRaise POutOfModel.
Proof.
  intros Hi. induction n as [|n IH]; intros t Hl; cbn [interpolate_loop]; [destruct t; [discriminate|cbn in Hl; lia]|].
  destruct t as [|c r]; [discriminate|]. cbn [length] in Hl. destruct (negb _).
  { pose proof (IH r ltac:(lia)). destruct (interpolate_loop _ _ n r); cbn [pbind]; congruence. }
  destruct r as [|d r]; [discriminate|]. cbn [length] in Hl. destruct (Ascii.eqb d "%").
  { pose proof (IH r ltac:(lia)). destruct (interpolate_loop _ _ n r); cbn [pbind]; congruence. }
  destruct (Ascii.eqb d "("); [|discriminate]. destruct (span _ r) as [a b] eqn:Es. apply span_split in Es. destruct Es as (-> & _ & _).
  destruct a as [|x name]; [discriminate|]. destruct b as [|y [|e after]]; try discriminate.
  destruct (Ascii.eqb e "s"); [|discriminate]. destruct (values _) as [w|]; [|discriminate].
  pose proof (Hi w). pose proof (IH after ltac:(rewrite app_length in Hl; cbn in Hl; lia)).
  destruct (has_char "%" w); [destruct (inner w)|]; cbn [pbind]; try congruence; destruct (interpolate_loop _ _ n after); cbn [pbind]; congruence.
Qed.
End Loop.

Lemma interpolate_fuel values d : forall t, interpolate values d t <> PRaise POutOfModel.
Proof. induction d as [|d IH]; intros t; cbn [interpolate]; [discriminate|]. now apply loop_fuel. Qed.

Lemma interpolate_means values d : forall t v,
  means (fun n w => values n = Some w) d t v <-> deeper (interpolate values d) t = POk v.
Proof.
  induction d as [|d IH]; intros t v.
  - cbn [means]. unfold deeper. rewrite <- has_percent. destruct (has_char "%" t); cbn [interpolate]; split; try easy.
    + intros [_ ->]. reflexivity.
    + intros H. injection H as ->. easy.
  - assert (E : deeper (interpolate values (S d)) t = interpolate_loop (interpolate values d) values (length t) t).
    { unfold deeper. destruct (has_char "%" t) eqn:H; [reflexivity|]. now rewrite interpolate_plain. }
    rewrite E. clear E. cbn [means].
    assert (S2 : forall ps vs, Forall2 (fun p u => match p with
                             | Plain t => u = t
                             | Percent => u = T "%"
                             | Reference name => exists w, values (map small_letter name) = Some w
                                 /\ means (fun n w => values n = Some w) d w u
                             end) ps vs <-> Forall2 (stands (interpolate values d) values) ps vs).
    { intros ps vs. split; induction 1 as [|p u ps vs Hp _ IHp]; constructor; try exact IHp; destruct p; try exact Hp; cbn [stands] in *;
        destruct Hp as (w & E & Hw); exists w; [rewrite <- small_letters|rewrite small_letters]; (split; [exact E|]); now apply IH. }
    split.
    + intros (ps & vs & -> & Hok & -> & H). apply S2 in H. now apply loop_pieces.
    + intros H. destruct (loop_written _ _ _ _ _ H) as (ps & -> & Hok).
      destruct (loop_pieces (interpolate values d) values ps Hok _ (le_n _)) as [A _]. destruct (A v H) as (vs & -> & Hs).
      exists ps, vs. repeat split; auto. now apply S2.
Qed.

(** * C92 *)

(** A value is accepted exactly if it means something with at most ten steps of
    references, and then its meaning is returned; otherwise parser.get raises
    InterpolationError. *)
Theorem C92_exact : forall p name w, option_value p section_name name = Some w ->
  (forall v, get_option p name = POk (Some v) <-> means (fun n x => option_value p section_name n = Some x) 10 w v)
  /\ ((forall v, ~ means (fun n x => option_value p section_name n = Some x) 10 w v) -> get_option p name = PRaise BadValue).
Proof.
  intros p name w Hw. set (values := option_value p section_name).
  assert (E : get_option p name = pbind (deeper (interpolate values 10) w) (fun v => POk (Some v))).
  { unfold get_option. change (T "versioneer") with section_name. rewrite Hw. fold values. f_equal. unfold deeper.
    destruct (has_char "%" w) eqn:H; [reflexivity|]. change (interpolate values max_depth w) with
      (interpolate_loop (interpolate values 9) values (length w) w). now apply interpolate_plain. }
  rewrite E. split.
  - intros v. change (fun n x => values n = Some x) with (fun n x => values n = Some x). rewrite (interpolate_means values 10).
    destruct (deeper _ w) as [u|]; cbn [pbind]; split; congruence.
  - intros H. destruct (deeper (interpolate values 10) w) as [v|e] eqn:Ed.
    + exfalso. apply (H v). now apply (interpolate_means values 10).
    + cbn [pbind]. unfold deeper in Ed. destruct (has_char "%" w); [|discriminate].
      destruct (interpolate_raises _ _ _ _ Ed) as [-> | ->]; [reflexivity|]. now apply interpolate_fuel in Ed.
Qed.
Print Assumptions C92_exact.

(** A value means one thing only. *)
Lemma means_more sets n : forall t v, means sets n t v -> means sets (S n) t v.
Proof.
  induction n as [|n IH]; intros t v.
  - intros [H ->]. exists [Plain t], [t]. cbn [map concat written]. rewrite app_nil_r. repeat split; repeat constructor; auto.
  - intros (ps & vs & -> & Hok & -> & H). exists ps, vs. repeat split; auto.
    induction H as [|p u ps vs Hp _ IHp]; [constructor|]. inversion Hok; subst. constructor; [|now apply IHp].
    destruct p; auto. destruct Hp as (w & Hs & Hm). exists w. split; [exact Hs|]. now apply IH.
Qed.
Lemma means_le sets n m t v : n <= m -> means sets n t v -> means sets m t v.
Proof. induction 1; auto. intros H'. now apply means_more, IHle. Qed.

Theorem C92_one_meaning : forall values n m t v v',
  means (fun k w => values k = Some w) n t v -> means (fun k w => values k = Some w) m t v' -> v = v'.
Proof.
  intros values n m t v v' H H'. apply (means_le _ _ (max n m)), interpolate_means in H; [|lia].
  apply (means_le _ _ (max n m)), interpolate_means in H'; [|lia]. congruence.
Qed.
Print Assumptions C92_one_meaning.

(** Options that refer to each other in a circle mean nothing, so they are
    refused. *)
Theorem C92_circle : forall values (circle : text -> Prop),
  (forall t, circle t -> exists ps name w, t = concat (map written ps) /\ Forall piece_ok ps /\ In (Reference name) ps
      /\ values (map small_letter name) = Some w /\ circle w) ->
  forall n t v, circle t -> ~ means (fun k w => values k = Some w) n t v.
Proof.
  intros values circle Hc. induction n as [|n IH]; intros t v Ht Hm; destruct (Hc t Ht) as (ps & name & w & -> & Hok & Hin & Ew & Hw).
  - destruct Hm as [Hm _]. apply Hm, in_concat. exists (written (Reference name)). split; [now apply in_map|now left].
  - apply interpolate_means in Hm.
    assert (E : interpolate_loop (interpolate values n) values (length (concat (map written ps))) (concat (map written ps)) = POk v).
    { unfold deeper in Hm. destruct (has_char "%" _) eqn:H; [exact Hm|]. injection Hm as <-. now apply interpolate_plain. }
    destruct (loop_pieces (interpolate values n) values ps Hok _ (le_n _)) as [A _]. destruct (A v E) as (vs & _ & Hs).
    apply in_split in Hin. destruct Hin as (a & b & ->). apply Forall2_app_inv_l in Hs. destruct Hs as (x & y & _ & Hs & _).
    inversion Hs as [|? u ? ? Hu _]; subst. destruct Hu as (w' & Ew' & Hu). rewrite <- small_letters, Ew in Ew'. injection Ew' as <-.
    apply (IH w u Hw). now apply interpolate_means.
Qed.
Print Assumptions C92_circle.

(** ** The configuration *)
Lemma means_ext (s s' : text -> text -> Prop) : (forall k w, s k w -> s' k w) ->
  forall n t v, means s n t v -> means s' n t v.
Proof.
  intros E. induction n as [|n IH]; intros t v; [easy|]. intros (ps & vs & -> & Hok & -> & H). exists ps, vs. repeat split; auto.
  clear Hok. induction H as [|p u ps vs Hp _ IHp]; constructor; auto. destruct p; auto.
  destruct Hp as (w & Hs & Hm). exists w. split; [now apply E|now apply IH].
Qed.

(** [name] is set to something that means [v], or not at all. *)
Definition setting_means (items : list item) (name : text) (o : option text) : Prop :=
  match o with
  | Some v => exists w, sets items name w /\ means (sets items) 10 w v
  | None => forall w, ~ sets items name w
  end.

Section File.
Variables (before after : text) (items : list item) (p : parser).
Let file := before ++ section items ++ after.
Hypothesis Hb : ends_line before.
Hypothesis Hi : Forall item_ok items.
Hypothesis Ha : next_section after.
Hypothesis Hd : ~ occurs (T "[DEFAULT]") file.
Hypothesis Hp : read_config file = POk p.

Lemma sets_value k w : sets items k w <-> option_value p section_name k = Some w.
Proof.
  split.
  - intros H. exact (value_of before after items p Hb Hi Ha Hd Hp k (Some w) H).
  - intros H. destruct (setting_dec items k) as [o Ho]. pose proof (value_of before after items p Hb Hi Ha Hd Hp k o Ho) as E.
    rewrite H in E. subst o. exact Ho.
Qed.
Lemma get_meaning name o : setting_means items name o -> get_option p name = POk o.
Proof.
  destruct o as [v|]; cbn [setting_means].
  - intros (w & Hs & Hm). apply sets_value in Hs. apply (C92_exact p name w Hs).
    revert Hm. apply means_ext. intros k x. apply sets_value.
  - intros H. unfold get_option. change (T "versioneer") with section_name. destruct (option_value p section_name name) as [w|] eqn:E; [|reflexivity].
    exfalso. apply (H w). now apply sets_value.
Qed.
Lemma get_meaningless name w : sets items name w -> (forall v, ~ means (sets items) 10 w v) -> get_option p name = PRaise BadValue.
Proof.
  intros Hs H. apply sets_value in Hs. apply (C92_exact p name w Hs). intros v Hm. apply (H v).
  revert Hm. apply means_ext. intros k x. apply sets_value.
Qed.
Lemma get_either name : (exists o, get_option p name = POk o) \/ get_option p name = PRaise BadValue.
Proof.
  unfold get_option. destruct (option_value _ _ _) as [w|]; [|left; now exists None].
  destruct (interpolate _ _ w) as [v|e] eqn:E; [left; now exists (Some v)|]. right. cbn [pbind].
  destruct (interpolate_raises _ _ _ _ E) as [-> | ->]; [reflexivity|]. now apply interpolate_fuel in E.
Qed.
End File.

(** C87_config for values with percent signs. *)
Theorem C92_config before items after vcs style source build prefix parent verbose :
  let file := before ++ section items ++ after in
  ends_line before -> Forall item_ok items -> next_section after -> ~ occurs (T "[DEFAULT]") file ->
  (exists p, read_config file = POk p) ->
  setting_means items (T "vcs") (Some vcs) -> setting_means items (T "style") style ->
  setting_means items (T "versionfile_source") source -> setting_means items (T "versionfile_build") build ->
  setting_means items (T "tag_prefix") prefix -> setting_means items (T "parentdir_prefix") parent ->
  setting_means items (T "verbose") verbose ->
  exists c, get_config (Some file) = POk c
  /\ c_VCS c = vcs
  /\ c_style c = match style with Some v => v | None => [] end
  /\ c_source c = source /\ c_build c = build /\ c_parentdir_prefix c = parent
  /\ (match prefix with
      | Some v => (quoted_empty v -> c_tag_prefix c = Some []) /\ (~ quoted_empty v -> c_tag_prefix c = Some v)
      | None => c_tag_prefix c = None
      end).
Proof.
  cbn zeta. set (file := before ++ section items ++ after). intros Hb Hi Ha Hd [p Hp] S1 S2 S3 S4 S5 S6 S7.
  pose proof (get_meaning before after items p Hb Hi Ha Hd Hp) as O.
  exists (Config vcs (match style with Some v => v | None => [] end) source build (unquoted prefix) parent).
  unfold get_config. rewrite Hp. cbn [pbind].
  assert (Hh : has_section p (T "versioneer") = true) by apply (C87_reads before items after p Hb Hi Ha Hp).
  rewrite Hh. cbn [negb]. rewrite (O _ _ S1), (O _ _ S2), (O _ _ S3), (O _ _ S4), (O _ _ S5), (O _ _ S6), (O _ _ S7). cbn [pbind].
  split; [destruct style; reflexivity|]. cbn [c_VCS c_style c_source c_build c_tag_prefix c_parentdir_prefix].
  repeat split; try reflexivity. destruct prefix as [v|]; [|reflexivity]. unfold unquoted, quoted_empty. split.
  - intros [->| ->]; reflexivity.
  - intros H. destruct (text_eqb v (T "''")) eqn:E1; [apply text_eqb_eq in E1; tauto|].
    destruct (text_eqb v [quote; quote]) eqn:E2; [apply text_eqb_eq in E2; tauto|]. reflexivity.
Qed.
Print Assumptions C92_config.

(** A setting that means nothing stops versioneer. *)
Theorem C92_refused before items after name w vcs :
  let file := before ++ section items ++ after in
  ends_line before -> Forall item_ok items -> next_section after -> ~ occurs (T "[DEFAULT]") file ->
  (exists p, read_config file = POk p) -> sets items (T "vcs") vcs ->
  In name [T "vcs"; T "style"; T "versionfile_source"; T "versionfile_build"; T "tag_prefix"; T "parentdir_prefix"; T "verbose"] ->
  sets items name w -> (forall v, ~ means (sets items) 10 w v) ->
  get_config (Some file) = PRaise BadValue.
Proof.
  cbn zeta. set (file := before ++ section items ++ after). intros Hb Hi Ha Hd [p Hp] Hv Hin Hs Hm.
  pose proof (get_meaningless before after items p Hb Hi Ha Hd Hp name w Hs Hm) as E.
  unfold get_config. rewrite Hp. cbn [pbind].
  assert (Hh : has_section p (T "versioneer") = true) by apply (C87_reads before items after p Hb Hi Ha Hp).
  rewrite Hh. cbn [negb].
  assert (V : (exists v, get_option p (T "vcs") = POk (Some v)) \/ get_option p (T "vcs") = PRaise BadValue).
  { pose proof (proj1 (sets_value before after items p Hb Hi Ha Hd Hp (T "vcs") vcs) Hv) as Ev. 
    destruct (get_either p (T "vcs")) as [[o Eo]|Eo]; [|now right]. left. unfold get_option in *. change (T "versioneer") with section_name in *.
    rewrite Ev in *. destruct (interpolate _ _ vcs); cbn [pbind] in *; [eauto|discriminate]. }
  destruct V as [[v V]|V]; rewrite V; cbn [pbind]; [|reflexivity].
  destruct (get_either p (T "style")) as [[o1 E1]|E1]; rewrite E1; cbn [pbind]; [|reflexivity].
  destruct (get_either p (T "versionfile_source")) as [[o2 E2]|E2]; rewrite E2; cbn [pbind]; [|reflexivity].
  destruct (get_either p (T "versionfile_build")) as [[o3 E3]|E3]; rewrite E3; cbn [pbind]; [|reflexivity].
  destruct (get_either p (T "tag_prefix")) as [[o4 E4]|E4]; rewrite E4; cbn [pbind]; [|reflexivity].
  destruct (get_either p (T "parentdir_prefix")) as [[o5 E5]|E5]; rewrite E5; cbn [pbind]; [|reflexivity].
  destruct (get_either p (T "verbose")) as [[o6 E6]|E6]; rewrite E6; cbn [pbind]; [|reflexivity].
  exfalso. repeat (destruct Hin as [<-|Hin]; [congruence|]). destruct Hin.
Qed.
Print Assumptions C92_refused.

(** A setup.cfg with references, a doubled percent sign, and a circle. *)
Example C92_case :
  let cfg (last : string) := unlines ["[versioneer]"; "VCS = git"; "package = gcs"; "versionfile_source = %(Package)s/_version.py";
    "versionfile_build = %(versionfile_source)s"; "tag_prefix = 100%%-"; last]%string in
  get_config (Some (cfg "style = pep440"%string))
    = POk (Config (T "git") (T "pep440") (Some (T "gcs/_version.py")) (Some (T "gcs/_version.py")) (Some (T "100%-")) None)
  /\ get_config (Some (cfg "style = %(style)s"%string)) = PRaise BadValue
  /\ get_config (Some (cfg "style = 50%"%string)) = PRaise BadValue
  /\ get_config (Some (cfg "style = %(missing)s"%string)) = PRaise BadValue.
Proof. vm_compute. repeat split. Qed.

(** The hypotheses of C92_config and C92_circle are met. *)
Example C92_case_hypotheses :
  let opt k v := IOpt (T k) (T " = ") (T v) in
  let items := [opt "VCS" "git"; opt "package" "gcs"; opt "versionfile_source" "%(Package)s/_version.py"; opt "tag_prefix" "100%%-";
                opt "style" "%(style)s"]%string in
  Forall item_ok items /\ (exists p, read_config (section items) = POk p)
  /\ setting_means items (T "vcs") (Some (T "git"))
  /\ setting_means items (T "versionfile_source") (Some (T "gcs/_version.py"))
  /\ setting_means items (T "tag_prefix") (Some (T "100%-"))
  /\ setting_means items (T "versionfile_build") None
  /\ (forall v, ~ means (sets items) 10 (T "%(style)s") v).
Proof.
  cbn zeta.
  set (items := [_; _; _; _; _]).
  assert (Hok : Forall item_ok items).
  { repeat constructor; try discriminate; try (now exists [" "%char], "="%char, [" "%char]; repeat split; repeat constructor; auto). }
  assert (Hp : exists p, read_config (section items) = POk p) by (eexists; vm_compute; reflexivity).
  split; [exact Hok|]. split; [exact Hp|]. split; [|split; [|split; [|split]]].
  - exists (T "git"). split; [now exists (T "VCS"), (T " = "); split; [left|]|].
    apply (means_le _ 0); [lia|]. split; [|reflexivity]. intros H. repeat (destruct H as [H|H]; [discriminate|]). exact H.
  - exists (T "%(Package)s/_version.py"). split; [now exists (T "versionfile_source"), (T " = "); split; [do 2 right; left|]|].
    apply (means_le _ 1); [lia|]. exists [Reference (T "Package"); Plain (T "/_version.py")], [T "gcs"; T "/_version.py"].
    split; [reflexivity|]. split; [|split; [reflexivity|]].
    + constructor; [split; [discriminate|]|constructor; [|constructor]]; intros H; repeat (destruct H as [H|H]; [discriminate|]); exact H.
    + constructor; [|constructor; [reflexivity|constructor]]. exists (T "gcs"). split; [now exists (T "package"), (T " = "); split; [right; left|]|].
      split; [|reflexivity]. intros H. repeat (destruct H as [H|H]; [discriminate|]). exact H.
  - exists (T "100%%-"). split; [now exists (T "tag_prefix"), (T " = "); split; [do 3 right; left|]|].
    apply (means_le _ 1); [lia|]. exists [Plain (T "100"); Percent; Plain (T "-")], [T "100"; T "%"; T "-"].
    split; [reflexivity|]. split; [|split; [reflexivity|]].
    + constructor; [|constructor; [exact I|constructor; [|constructor]]]; intros H; repeat (destruct H as [H|H]; [discriminate|]); exact H.
    + repeat constructor.
  - intros w (k & e & Hin & Ek). repeat (destruct Hin as [Hin|Hin]; [injection Hin as <- <- <-; discriminate Ek|]). exact Hin.
  - destruct Hp as [p Hp]. intros v Hm.
    assert (Hp' : read_config ([] ++ section items ++ []) = POk p) by now rewrite app_nil_r.
    assert (Hd : ~ occurs (T "[DEFAULT]") ([] ++ section items ++ [])).
    { intros H. apply (contains_iff (T "[DEFAULT]")) in H. vm_compute in H. discriminate. }
    apply (means_ext _ (fun k w => option_value p section_name k = Some w)) in Hm;
      [|intros k w; apply (sets_value [] [] items p); [now left|exact Hok|now left|exact Hd|exact Hp']].
    revert Hm. apply (C92_circle (option_value p section_name) (fun t => t = T "%(style)s")); [|reflexivity].
    intros t ->. exists [Reference (T "style")], (T "style"), (T "%(style)s"). repeat split; try (now left); try now repeat constructor.
    + constructor; [|constructor]. split; [discriminate|]. intros H; repeat (destruct H as [H|H]; [discriminate|]); exact H.
    + apply (sets_value [] [] items p); [now left|exact Hok|now left|exact Hd|exact Hp'|].
      exists (T "style"), (T " = "). split; [do 4 right; now left|reflexivity].
Qed.

(** C73, C74: the version of a distribution, and the version setup.py computes. *)
From Coq Require Import String Ascii ZArith NArith Bool List Lia.
Import ListNotations.
From Verif Require Import Version VersionFacts Versioneer PropVersion.
Open Scope list_scope.

(** * JSON strings *)
Lemma json_string_char c s : json_string (json_char c ++ s) = after_char c (json_string s).
Proof.
  destruct c as [[] [] [] [] [] [] [] []]; cbn [app]; try reflexivity.
Qed.

Lemma json_string_text t s : json_string (flat_map json_char t ++ quote :: s) = VOk (t, s).
Proof.
  induction t as [|c t IH]; [reflexivity|].
  cbn [flat_map]. rewrite <- app_assoc, json_string_char, IH. reflexivity.
Qed.

(** The texts of a dictionary. *)
Definition texts (d : dict) : list text :=
  flat_map (fun m => fst m :: match snd m with JText t => [t] | _ => [] end) d.

(** The output of json.dumps with the strings written by [e]. *)
Section Dumps.
Variable e : text -> text.
Definition text_with (t : text) : text := quote :: e t ++ [quote].
Definition val_with (v : jval) : text :=
  match v with JNull => T "null" | JBool true => T "true" | JBool false => T "false" | JText t => text_with t end.
Definition member_with (m : text * jval) : text := T " " ++ text_with (fst m) ++ T ": " ++ val_with (snd m).
Fixpoint members_with (d : dict) : text :=
  match d with
  | [] => []
  | [m] => member_with m
  | m :: r => member_with m ++ T "," ++ newline :: members_with r
  end.
Definition dumps_with (d : dict) : text := T "{" ++ newline :: members_with d ++ newline :: T "}".

Definition readable (t : text) : Prop := forall s, json_string (e t ++ quote :: s) = VOk (t, s).

Lemma json_value_ok v s : match v with JText t => readable t | _ => True end ->
  json_value (val_with v ++ s) = VOk (v, s).
Proof.
  destruct v as [|[]|t]; intros H; try reflexivity.
  cbn [val_with]. unfold text_with. cbn [app]. rewrite <- app_assoc. cbn [app].
  unfold json_value. rewrite Ascii.eqb_refl. rewrite H. reflexivity.
Qed.

Lemma skip_space_stop c s : is_jspace c = false -> skip_space (c :: s) = c :: s.
Proof. intros H. unfold skip_space. cbn [lstrip_by]. now rewrite H. Qed.

Lemma val_start v s : exists c r, val_with v ++ s = c :: r /\ is_jspace c = false.
Proof. destruct v as [|[]|t]; eexists _, _; (split; [reflexivity|reflexivity]). Qed.

(** A member as written, read from the quote of its key. *)
Lemma json_object_member fuel k v s : readable k -> match v with JText t => readable t | _ => True end ->
  json_object (S fuel) (text_with k ++ T ": " ++ val_with v ++ s) =
  match skip_space s with
  | e :: r4 =>
      if Ascii.eqb e "}" then VOk ([(k, v)], r4)
      else if Ascii.eqb e "," then
        vbind (json_object fuel (skip_space r4)) (fun '(d, r5) => VOk ((k, v) :: d, r5))
      else VRaise VValueError
  | [] => VRaise VValueError
  end.
Proof.
  intros Hk Hv. unfold text_with. cbn [app]. rewrite <- app_assoc. cbn [app json_object]. rewrite Ascii.eqb_refl.
  rewrite Hk. cbn [vbind T list_ascii_of_string app].
  rewrite (skip_space_stop ":"%char) by reflexivity. change (Ascii.eqb ":" ":") with true. cbn iota.
  assert (E : skip_space (" "%char :: val_with v ++ s) = val_with v ++ s).
  { unfold skip_space. cbn [lstrip_by]. change (is_jspace " ") with true. cbn iota.
    destruct (val_start v s) as (c & r & -> & Hc). apply skip_space_stop, Hc. }
  rewrite E, (json_value_ok v s Hv). reflexivity.
Qed.

Lemma json_object_members d : d <> [] -> Forall readable (texts d) -> forall fuel s, (length d <= fuel)%nat ->
  json_object fuel (skip_space (members_with d ++ newline :: T "}" ++ s)) = VOk (d, s).
Proof.
  induction d as [|[k v] d IH]; [congruence|]. intros _ Hr [|fuel] s Hf; [cbn in Hf; lia|].
  assert (Hs : forall x, skip_space (T " " ++ text_with k ++ x) = text_with k ++ x) by reflexivity.
  assert (Hr' : readable k /\ match v with JText t => readable t | _ => True end /\ Forall readable (texts d)).
  { unfold texts in *. cbn [flat_map fst snd app] in Hr. apply Forall_cons_iff in Hr. destruct Hr as [H1 H2].
    split; [exact H1|]. apply Forall_app in H2. destruct H2 as [H2 H3]. split; [|exact H3].
    destruct v; trivial. now apply Forall_inv in H2. }
  destruct Hr' as (Hk & Hv & Hd).
  destruct d as [|m d].
  - cbn [members_with]. unfold member_with. cbn [fst snd].
    rewrite <- !app_assoc, Hs, json_object_member by assumption. reflexivity.
  - change (members_with ((k, v) :: m :: d))
      with (member_with (k, v) ++ T "," ++ newline :: members_with (m :: d)).
    remember (m :: d) as d' eqn:Ed. unfold member_with at 1. cbn [fst snd].
    rewrite <- !app_assoc, Hs, json_object_member by assumption.
    cbn [T list_ascii_of_string app]. rewrite (skip_space_stop ","%char) by reflexivity.
    change (Ascii.eqb "," "}") with false. change (Ascii.eqb "," ",") with true. cbn iota.
    assert (E : forall x, skip_space (newline :: x) = skip_space x) by reflexivity.
    rewrite E.
    specialize (IH ltac:(subst; discriminate) Hd fuel s ltac:(subst; cbn [length] in *; lia)).
    change (T "}" ++ s) with ("}"%char :: s) in IH. rewrite IH. reflexivity.
Qed.

(** * json.loads inverts json.dumps *)
Lemma json_loads_dumps d : d <> [] -> Forall readable (texts d) ->
  forall pre post, Forall (fun c => is_jspace c = true) pre ->
  Forall (fun c => is_jspace c = true) post -> json_loads (pre ++ dumps_with d ++ post) = VOk d.
Proof.
  intros Hne Hr pre post Hpre Hpost. unfold json_loads.
  assert (E : skip_space (pre ++ dumps_with d ++ post) = dumps_with d ++ post).
  { unfold skip_space. rewrite lstrip_by_pad by exact Hpre. reflexivity. }
  rewrite E. unfold dumps_with at 1. cbn [T list_ascii_of_string app].
  change (Ascii.eqb "{" "{") with true. cbn iota.
  assert (En : forall x, skip_space (newline :: x) = skip_space x) by reflexivity. rewrite En.
  rewrite <- app_assoc. cbn [app].
  assert (L : (length d <= length (pre ++ dumps_with d ++ post))%nat).
  { rewrite !app_length. unfold dumps_with. rewrite app_length. cbn [length]. rewrite app_length.
    assert (length d <= length (members_with d))%nat; [|lia].
    clear. induction d as [|m d IH]; [cbn; lia|]. destruct d as [|m' d].
    - cbn. lia.
    - change (members_with (m :: m' :: d)) with (member_with m ++ T "," ++ newline :: members_with (m' :: d)).
      rewrite !app_length. cbn [length] in *. lia. }
  pose proof (json_object_members d Hne Hr _ post L) as H. cbn [T list_ascii_of_string app] in H.
  destruct d as [|[k v] d]; [congruence|].
  remember (length (pre ++ dumps_with ((k, v) :: d) ++ post)) as n eqn:En'. clear En' L E.
  destruct (skip_space (members_with ((k, v) :: d) ++ newline :: "}"%char :: post)) as [|c r1] eqn:Es.
  { destruct n; discriminate H. }
  assert (He : c = quote).
  { destruct d; cbn [members_with] in Es; unfold member_with in Es; rewrite <- !app_assoc in Es;
      injection Es as <- _; reflexivity. }
  subst c. change (Ascii.eqb quote "}") with false. cbn iota. rewrite H. cbn [vbind].
  unfold skip_space. now rewrite lstrip_by_all.
Qed.
End Dumps.

Lemma json_dumps_with d : json_dumps d = dumps_with (flat_map json_char) d.
Proof. reflexivity. Qed.

Lemma json_readable t : readable (flat_map json_char) t.
Proof. intros s. apply json_string_text. Qed.

(** * The file *)
Lemma rindex_from_later p a : forall b k j, rindex_from (k + length a) p b = Some j ->
  rindex_from k p (a ++ b) = Some j.
Proof.
  induction a as [|c a IH]; intros b k j H; cbn [app length] in *.
  - now rewrite Nat.add_0_r in H.
  - cbn [rindex_from]. rewrite (IH b (S k) j); [reflexivity|]. now rewrite Nat.add_succ_r in H.
Qed.

Lemma rindex_close k : rindex_from k template_close (template_close ++ template_tail) = Some k.
Proof. vm_compute. reflexivity. Qed.

Lemma search_between_here pre post t s : rindex_from (length t) post (post ++ s) = Some (length t) ->
  search_between pre post (pre ++ t ++ post ++ s) = Some t.
Proof.
  intros H. assert (E : rindex post (t ++ post ++ s) = Some (length t)) by (apply rindex_from_later, H).
  destruct (pre ++ t ++ post ++ s) as [|c r] eqn:El; cbn [search_between]; rewrite <- El;
    rewrite starts_with_app, skipn_app_len, E; cbn [option_map]; now rewrite firstn_app_len.
Qed.

Lemma search_head post s : search_between (template_open ++ [newline]) post (template_head ++ s)
  = search_between (template_open ++ [newline]) post s.
Proof. reflexivity. Qed.

Lemma file_json d : search_between (template_open ++ [newline]) template_close (version_file d)
  = Some (json_dumps d ++ [newline]).
Proof.
  unfold version_file. rewrite search_head.
  replace (template_open ++ newline :: json_dumps d ++ newline :: template_close ++ template_tail)
    with ((template_open ++ [newline]) ++ (json_dumps d ++ [newline]) ++ template_close ++ template_tail)
    by (rewrite <- !app_assoc; reflexivity).
  apply search_between_here, rindex_close.
Qed.

Lemma versions_from_file_ok d : d <> [] -> versions_from_file (version_file d) = VOk d.
Proof.
  intros Hne. unfold versions_from_file. rewrite file_json.
  rewrite json_dumps_with. apply (json_loads_dumps _ d Hne) with (pre := []) (post := [newline]);
    [|now constructor|now repeat constructor].
  apply Forall_forall. intros t _. apply json_readable.
Qed.

(** * The literal *)
Definition before (t : text) (m : vres (text * text)) : vres (text * text) :=
  vbind m (fun '(x, r) => VOk (t ++ x, r)).

Lemma before_before a b m : before a (before b m) = before (a ++ b) m.
Proof. destruct m as [[x r]|]; cbn; [|reflexivity]. now rewrite app_assoc. Qed.

Lemma before_char c t m : after_char c (before t m) = before (c :: t) m.
Proof. destruct m as [[x r]|]; reflexivity. Qed.

Definition ordinary (c : ascii) : Prop := c <> "'"%char /\ c <> "\"%char.

Lemma triple_ordinary t s : Forall ordinary t -> triple_quoted (t ++ s) = before t (triple_quoted s).
Proof.
  induction 1 as [|c t [H1 H2] Ht IH]; cbn [app].
  - destruct (triple_quoted s) as [[x r]|]; reflexivity.
  - cbn [triple_quoted T list_ascii_of_string starts_with].
    destruct (Ascii.eqb_spec "'" c); [congruence|]. cbn [andb].
    destruct (Ascii.eqb_spec c "\"); [congruence|]. rewrite IH, before_char. reflexivity.
Qed.

(** * Specification: texts that survive in a Python literal inside JSON. *)
Definition clean_char (c : ascii) : Prop := (32 <= nat_of_ascii c)%nat /\ c <> quote /\ c <> "\"%char.
Definition clean (t : text) : Prop :=
  Forall clean_char t /\ forall a b, t <> a ++ T "'''" ++ b.

Lemma clean_raw t s : Forall clean_char t -> json_string (t ++ quote :: s) = VOk (t, s).
Proof.
  induction 1 as [|c t (H1 & H2 & H3) Ht IH]; [reflexivity|]. cbn [app json_string].
  destruct (Ascii.eqb_spec c quote); [congruence|]. destruct (Ascii.eqb_spec c "\"); [congruence|].
  destruct (Nat.ltb_spec (nat_of_ascii c) 32); [lia|]. now rewrite IH.
Qed.

(** Every character but the apostrophe is read back from its JSON form. *)
Lemma triple_char c s : clean_char c -> c <> "'"%char ->
  triple_quoted (json_char c ++ s) = after_char c (triple_quoted s).
Proof.
  intros (H1 & H2 & H3) H4.
  destruct c as [[] [] [] [] [] [] [] []]; try (exfalso; cbn in H1; lia); try congruence; reflexivity.
Qed.

Lemma json_char_apostrophe c r : json_char c = "'"%char :: r -> c = "'"%char.
Proof. destruct c as [[] [] [] [] [] [] [] []]; intros E; try discriminate E; reflexivity. Qed.

Lemma json_char_nonempty c : exists x r, json_char c = x :: r.
Proof. destruct c as [[] [] [] [] [] [] [] []]; eexists _, _; reflexivity. Qed.

Lemma clean_tail c t : clean (c :: t) -> clean t.
Proof.
  intros [H1 H2]. split; [now apply Forall_inv_tail in H1|]. intros a b E. apply (H2 (c :: a) b). now rewrite E.
Qed.

Lemma triple_text t s : clean t ->
  triple_quoted (flat_map json_char t ++ quote :: s) = before (t ++ [quote]) (triple_quoted s).
Proof.
  induction t as [|c t IH]; intros Hc.
  - cbn [flat_map app]. apply (triple_ordinary [quote]). repeat constructor; discriminate.
  - specialize (IH (clean_tail _ _ Hc)). destruct (Ascii.eqb_spec c "'") as [->|Hn].
    + cbn [flat_map]. change (json_char "'") with (T "'"). cbn [T list_ascii_of_string app].
      assert (Hs : starts_with (T "'''") ("'"%char :: flat_map json_char t ++ quote :: s) = false).
      { destruct (starts_with _ _) eqn:E; [|reflexivity]. exfalso. apply starts_with_iff in E.
        destruct E as (r & E). cbn [T list_ascii_of_string app] in E. injection E as E.
        destruct t as [|c1 t1]; [discriminate E|]. cbn [flat_map] in E.
        destruct (json_char_nonempty c1) as (x1 & r1 & E1). rewrite E1 in E. cbn [app] in E. injection E as -> E.
        pose proof (json_char_apostrophe c1 _ E1) as ->. injection E1 as <-. cbn [app] in E.
        destruct t1 as [|c2 t2]; [discriminate E|]. cbn [flat_map] in E.
        destruct (json_char_nonempty c2) as (x2 & r2 & E2). rewrite E2 in E. cbn [app] in E. injection E as -> E.
        pose proof (json_char_apostrophe c2 _ E2) as ->.
        now apply (proj2 Hc [] t2). }
      cbn [triple_quoted]. rewrite Hs. change (Ascii.eqb "'" "\") with false. cbn iota.
      rewrite IH, before_char. reflexivity.
    + cbn [flat_map]. rewrite <- app_assoc, triple_char; [|exact (Forall_inv (proj1 Hc))|exact Hn].
      rewrite IH, before_char. reflexivity.
Qed.

Definition raw : text -> text := fun t => t.

Lemma triple_quote_text t s : clean t ->
  triple_quoted (text_with (flat_map json_char) t ++ s) = before (text_with raw t) (triple_quoted s).
Proof.
  intros Hc. unfold text_with. rewrite <- app_comm_cons, <- app_assoc.
  change (quote :: flat_map json_char t ++ [quote] ++ s) with ([quote] ++ (flat_map json_char t ++ quote :: s)).
  rewrite triple_ordinary by (repeat constructor; discriminate). rewrite triple_text by exact Hc.
  rewrite before_before. reflexivity.
Qed.

Lemma triple_val v s : match v with JText t => clean t | _ => True end ->
  triple_quoted (val_with (flat_map json_char) v ++ s) = before (val_with raw v) (triple_quoted s).
Proof.
  destruct v as [|[]|t]; intros H; cbn [val_with].
  1-3: apply triple_ordinary; repeat constructor; discriminate.
  now apply triple_quote_text.
Qed.

Lemma triple_member m s : clean (fst m) -> match snd m with JText t => clean t | _ => True end ->
  triple_quoted (member_with (flat_map json_char) m ++ s) = before (member_with raw m) (triple_quoted s).
Proof.
  intros Hk Hv. unfold member_with. rewrite <- !app_assoc.
  rewrite triple_ordinary by (repeat constructor; discriminate).
  rewrite triple_quote_text by exact Hk.
  rewrite triple_ordinary by (repeat constructor; discriminate).
  rewrite triple_val by exact Hv. rewrite !before_before. f_equal. now rewrite <- !app_assoc.
Qed.

Lemma triple_members d s : Forall clean (texts d) ->
  triple_quoted (members_with (flat_map json_char) d ++ s) = before (members_with raw d) (triple_quoted s).
Proof.
  induction d as [|m d IH]; intros Hc.
  - cbn. destruct (triple_quoted s) as [[x r]|]; reflexivity.
  - unfold texts in Hc. cbn [flat_map app] in Hc. apply Forall_cons_iff in Hc. destruct Hc as [H1 H2].
    apply Forall_app in H2. destruct H2 as [H2 H3].
    assert (Hv : match snd m with JText t => clean t | _ => True end).
    { destruct (snd m); trivial. now apply Forall_inv in H2. }
    destruct d as [|m' d].
    + cbn [members_with]. now apply triple_member.
    + change (members_with (flat_map json_char) (m :: m' :: d))
        with (member_with (flat_map json_char) m ++ T "," ++ newline :: members_with (flat_map json_char) (m' :: d)).
      change (members_with raw (m :: m' :: d)) with (member_with raw m ++ T "," ++ newline :: members_with raw (m' :: d)).
      rewrite <- app_assoc, triple_member by assumption.
      change ((T "," ++ newline :: members_with (flat_map json_char) (m' :: d)) ++ s)
        with ([","%char; newline] ++ (members_with (flat_map json_char) (m' :: d) ++ s)).
      rewrite triple_ordinary by (repeat constructor; discriminate).
      rewrite (IH H3), !before_before, <- app_assoc. reflexivity.
Qed.

Lemma lines_text s : text_of_lines (split_on newline s) = s.
Proof.
  induction s as [|x s IH]; [reflexivity|]. cbn [split_on]. destruct (Ascii.eqb_spec x newline) as [->|N].
  - destruct (split_on newline s) as [|w ws] eqn:E; [destruct s as [|y s']; cbn in E; [discriminate|];
      destruct (Ascii.eqb y newline), (split_on newline s'); discriminate|].
    change (text_of_lines ([] :: w :: ws)) with (newline :: text_of_lines (w :: ws)). now rewrite IH.
  - destruct (split_on newline s) as [|w ws]; [cbn in IH; now subst|].
    destruct ws as [|w' ws]; [cbn [text_of_lines] in *; cbn; congruence|].
    change (text_of_lines ((x :: w) :: w' :: ws)) with (x :: text_of_lines (w :: w' :: ws)). now rewrite IH.
Qed.
Lemma split_unlines l s : Forall (fun w => ~ In newline (T w)) l -> split_on newline (unlines l ++ s) = map T l ++ split_on newline s.
Proof.
  induction 1 as [|w l Hw _ IH]; [reflexivity|]. cbn [unlines map]. rewrite <- app_assoc. cbn [app]. rewrite split_on_app by exact Hw. now rewrite IH.
Qed.
Lemma one_line w : forallb (fun c => negb (Ascii.eqb c newline)) (T w) = true -> ~ In newline (T w).
Proof.
  intros H Hi. rewrite forallb_forall in H. apply H in Hi. now rewrite Ascii.eqb_refl in Hi.
Qed.

(** The generated file is read as the literal between the marks. *)
Lemma import_of s : import_get_versions (template_head ++ template_open ++ newline :: s)
  = vbind (triple_quoted (newline :: s)) (fun '(json, rest) =>
      match split_on newline rest with
      | l1 :: r1 => if only_comment l1 && defines_function r1 then json_loads json else VRaise VOutOfModel
      | [] => VRaise VOutOfModel
      end).
Proof.
  unfold import_get_versions, template_head. rewrite split_unlines by (repeat constructor; apply one_line; reflexivity).
  rewrite split_on_app by (apply one_line; reflexivity).
  set (L := split_on newline s).
  match goal with |- import_lines false (?h ++ _) = _ => change (import_lines false (h ++ template_open :: L)) with (import_lines true (template_open :: L)) end.
  assert (E : text_of_lines (template_open :: L) = template_open ++ newline :: s).
  { rewrite <- (lines_text (template_open ++ newline :: s)). rewrite (split_on_app newline template_open s) by (apply one_line; reflexivity). reflexivity. }
  cbn [import_lines]. change (only_comment template_open) with false. change (text_eqb template_open (T "import json")) with false.
  change (true && starts_with (T "version_json = '''") template_open) with true. cbv iota. rewrite E. reflexivity.
Qed.

Lemma import_file d : d <> [] -> Forall clean (texts d) -> import_get_versions (version_file d) = VOk d.
Proof.
  intros Hne Hc. unfold version_file. rewrite import_of.
  replace (newline :: json_dumps d ++ newline :: template_close ++ template_tail)
    with ([newline; "{"%char; newline] ++ (members_with (flat_map json_char) d
           ++ ([newline; "}"%char; newline] ++ (T "'''" ++ T "  # END VERSION_JSON" ++ template_tail)))).
  2:{ rewrite json_dumps_with. unfold dumps_with. cbn [app T list_ascii_of_string]. f_equal. f_equal. f_equal.
      rewrite <- app_assoc. reflexivity. }
  rewrite triple_ordinary by (repeat constructor; discriminate). rewrite triple_members by exact Hc.
  rewrite triple_ordinary by (repeat constructor; discriminate).
  change (triple_quoted (T "'''" ++ T "  # END VERSION_JSON" ++ template_tail))
    with (VOk (@nil ascii, T "  # END VERSION_JSON" ++ template_tail)).
  rewrite !before_before. cbn [before vbind].
  change (match split_on newline (T "  # END VERSION_JSON" ++ template_tail) with
          | l1 :: r1 => only_comment l1 && defines_function r1 | [] => false end) with true.
  rewrite app_nil_r, <- app_assoc.
  replace ([newline; "{"%char; newline] ++ members_with raw d ++ [newline; "}"%char; newline])
    with ([newline] ++ dumps_with raw d ++ [newline]).
  2:{ unfold dumps_with. cbn [app T list_ascii_of_string]. f_equal. f_equal. f_equal. rewrite <- app_assoc. reflexivity. }
  apply json_loads_dumps; [exact Hne| |now repeat constructor|now repeat constructor].
  eapply Forall_impl; [|exact Hc]. intros t [Ht _] s. now apply clean_raw.
Qed.

(** * Keywords *)
Lemma strip_keeps f c r : f c = false -> exists r', strip_by f (c :: r) = c :: r'.
Proof.
  intros H. unfold strip_by. cbn [lstrip_by]. rewrite H. cbn [rev].
  assert (G : forall x, exists y, lstrip_by f (x ++ [c]) = y ++ [c]).
  { induction x as [|a x IH]; cbn [app lstrip_by].
    - rewrite H. now exists [].
    - destruct (f a); [exact IH|]. now exists (a :: x). }
  destruct (G (rev r)) as (y & ->). rewrite rev_app_distr. cbn. eauto.
Qed.

(** A line of the file that does not set a keyword. *)
Definition other_line (l : text) : Prop :=
  forall name, In name [T "git_refnames"; T "git_full"; T "git_date"] ->
    starts_with (name ++ T " =") (strip l) = false.

Lemma keyword_other name lines : In name [T "git_refnames"; T "git_full"; T "git_date"] ->
  Forall other_line lines ->
  forall old, fold_left (fun old line => keyword_step name line old) lines old = old.
Proof.
  intros Hn. induction 1 as [|l ls Hl _ IH]; intros old; [reflexivity|]. cbn [fold_left].
  unfold keyword_step at 2. rewrite (Hl name Hn). apply IH.
Qed.

Lemma other_quote r : other_line (" "%char :: quote :: r).
Proof.
  intros name Hn. change (strip (" "%char :: quote :: r)) with (strip_by is_space (quote :: r)).
  destruct (strip_keeps is_space quote r eq_refl) as (r' & ->).
  destruct Hn as [<-|[<-|[<-|[]]]]; reflexivity.
Qed.

Lemma json_char_newline c : ~ In newline (json_char c).
Proof.
  destruct c as [[] [] [] [] [] [] [] []]; cbn;
    intros H; repeat (destruct H as [H|H]; [discriminate H|]); exact H.
Qed.

Lemma json_text_newline t : ~ In newline (json_text t).
Proof.
  unfold json_text. intros [H|H]; [discriminate H|]. apply in_app_iff in H. destruct H as [H|[H|[]]]; [|discriminate H].
  apply in_flat_map in H. destruct H as (c & _ & H). exact (json_char_newline c H).
Qed.

Lemma json_val_newline v : ~ In newline (json_val v).
Proof.
  destruct v as [|[]|t]; cbn [json_val]; [..|apply json_text_newline];
    cbn; intros H; repeat (destruct H as [H|H]; [discriminate H|]); exact H.
Qed.

Lemma json_member_newline m : ~ In newline (json_member m).
Proof.
  unfold json_member. rewrite !in_app_iff. intros [H|[H|[H|H]]].
  - cbn in H. destruct H as [H|[]]. discriminate H.
  - exact (json_text_newline _ H).
  - cbn in H. destruct H as [H|[H|[]]]; discriminate H.
  - exact (json_val_newline _ H).
Qed.

Lemma split_members d s : d <> [] -> Forall other_line (split_on newline s) ->
  Forall other_line (split_on newline (json_members d ++ newline :: s)).
Proof.
  intros Hne Hs. induction d as [|m d IH]; [congruence|]. 
  assert (Hq : forall r, other_line (json_member m ++ r)).
  { intros r. unfold json_member, json_text. apply other_quote. }
  destruct d as [|m' d].
  - cbn [json_members]. rewrite split_on_app by apply json_member_newline. constructor; [|exact Hs].
    specialize (Hq []). now rewrite app_nil_r in Hq.
  - change (json_members (m :: m' :: d)) with (json_member m ++ T "," ++ newline :: json_members (m' :: d)).
    rewrite app_assoc, <- app_assoc, <- app_comm_cons, split_on_app.
    + constructor; [apply Hq|]. apply IH. discriminate.
    + rewrite in_app_iff. intros [H|[H|[]]]; [exact (json_member_newline _ H)|discriminate H].
Qed.

Lemma no_keywords d : d <> [] -> git_get_keywords (version_file d) = Keywords None None None.
Proof.
  intros Hne.
  assert (G : Forall other_line (split_on newline (version_file d))).
  { assert (E : version_file d = T "" ++ newline :: T "# This file was generated by 'versioneer.py' (0.18) from"
      ++ newline :: T "# revision-control system data, or from the parent directory name of an"
      ++ newline :: T "# unpacked source archive. Distribution tarballs contain a pre-generated copy"
      ++ newline :: T "# of this file." ++ newline :: T "" ++ newline :: T "import json" ++ newline :: T ""
      ++ newline :: template_open ++ newline :: T "{" ++ newline :: json_members d ++ newline :: T "}"
      ++ newline :: template_close ++ template_tail).
    { unfold version_file, json_dumps. cbn [template_head unlines T list_ascii_of_string app].
      rewrite <- !app_assoc. cbn [app]. try rewrite <- !app_assoc. reflexivity. }
    rewrite E. clear E.
    repeat (rewrite split_on_app; [constructor; [intros name [<-|[<-|[<-|[]]]]; reflexivity|]
                                  |cbn; intros H; repeat (destruct H as [H|H]; [discriminate H|]); exact H]).
    apply split_members; [exact Hne|].
    vm_compute split_on. repeat (constructor; [intros name [<-|[<-|[<-|[]]]]; reflexivity|]). constructor. }
  unfold git_get_keywords, keyword_lines. rewrite !keyword_other; [reflexivity|..]; try exact G; cbn; tauto.
Qed.

Lemma dict_of_nonempty v : dict_of v <> [].
Proof. discriminate. Qed.

Definition version_of (d : dict) : vres jval := dict_get d (T "version").

(** * C73: a distribution has the version it was built with. *)

(** setup.py, run in an unpacked distribution, whatever git says there. *)
Theorem C73_setup : forall v g,
  setup_get_versions (version_file (dict_of v)) g = VOk (dict_of v)
  /\ version_of (dict_of v) = VOk (JText (v_version v)).
Proof.
  intros v g. split; [|reflexivity]. unfold setup_get_versions.
  rewrite (no_keywords _ (dict_of_nonempty v)). cbn [git_versions_from_keywords vbind otherwise].
  now rewrite (versions_from_file_ok _ (dict_of_nonempty v)).
Qed.
Print Assumptions C73_setup.

(** Importing the package. *)
Definition clean_option (o : option text) : Prop := match o with Some t => clean t | None => True end.
Definition clean_versions (v : versions) : Prop :=
  clean (v_version v) /\ clean_option (v_full v) /\ clean_option (v_error v) /\ clean_option (v_date v).

Lemma clean_ordinary t : Forall (fun c => clean_char c /\ c <> "'"%char) t -> clean t.
Proof.
  intros H. split.
  - eapply Forall_impl; [|exact H]. now intros c [Hc _].
  - intros a b E. rewrite Forall_forall in H. apply (H "'"%char); [|reflexivity].
    rewrite E. apply in_app_iff. right. now left.
Qed.

Theorem C73_import_partial : forall v, clean_versions v ->
  import_get_versions (version_file (dict_of v)) = VOk (dict_of v)
  /\ version_of (dict_of v) = VOk (JText (v_version v)).
Proof.
  intros v (H1 & H2 & H3 & H4). split; [|reflexivity]. apply import_file; [apply dict_of_nonempty|].
  assert (K : forall k, In k [T "date"; T "dirty"; T "error"; T "full-revisionid"; T "version"] -> clean k).
  { intros k Hk. cbn [In] in Hk. repeat (destruct Hk as [<-|Hk]; [apply clean_ordinary;
      repeat constructor; try discriminate; cbn; lia|]). contradiction. }
  assert (O : forall o, clean_option o -> Forall clean match opt_text o with JText t => [t] | _ => [] end).
  { intros [t|] Ho; repeat constructor; apply Ho. }
  unfold texts, dict_of. cbn [flat_map fst snd app].
  repeat first [apply Forall_cons; [apply K; cbn [In]; tauto|] | apply Forall_app; split]; auto.
  destruct (v_dirty v); constructor.
Qed.
Print Assumptions C73_import_partial.

(** From a checkout: the version of the installed package is the version of the
    checkout. *)
Lemma clean_app a b : clean a -> Forall (fun c => clean_char c /\ c <> "'"%char) b -> clean (a ++ b).
Proof.
  intros [H1 H2] Hb. split.
  - apply Forall_app. split; [exact H1|]. eapply Forall_impl; [|exact Hb]. now intros c [Hc _].
  - intros x y E. rewrite Forall_forall in Hb. apply app_eq_app in E.
    destruct E as (l & [[E1 E2]|[E1 E2]]).
    + destruct l as [|c1 [|c2 [|c3 l]]]; cbn [T list_ascii_of_string app] in E2.
      * apply (Hb "'"%char); [|reflexivity]. rewrite <- E2. now left.
      * injection E2 as _ E2. apply (Hb "'"%char); [|reflexivity]. rewrite <- E2. now left.
      * injection E2 as _ _ E2. apply (Hb "'"%char); [|reflexivity]. rewrite <- E2. now left.
      * injection E2 as <- <- <- _. now apply (H2 x l).
    + apply (Hb "'"%char); [|reflexivity]. rewrite E2. apply in_app_iff. right. now left.
Qed.

Definition plain_char (c : ascii) : Prop := clean_char c /\ c <> "'"%char.

Lemma hex_plain c : is_hex c = true -> plain_char c.
Proof.
  destruct c as [[] [] [] [] [] [] [] []]; intros H; try discriminate H;
    (split; [split; [cbn; lia|split; discriminate]|discriminate]).
Qed.

Lemma Forall_T_plain (s : string) : forallb (fun c => (32 <=? nat_of_ascii c)%nat && negb (Ascii.eqb c quote)
    && negb (Ascii.eqb c "\") && negb (Ascii.eqb c "'")) (T s) = true -> Forall plain_char (T s).
Proof.
  intros H. apply Forall_forall. intros c Hc. rewrite forallb_forall in H. specialize (H c Hc).
  rewrite !andb_true_iff, !negb_true_iff in H. destruct H as (((A & B) & C) & D).
  apply Ascii.eqb_neq in B. apply Ascii.eqb_neq in C. apply Ascii.eqb_neq in D.
  apply Nat.leb_le in A. now repeat split.
Qed.

Theorem C73_release_partial : forall file tag n hex dirty head count day time zone gdir b1 b2 b3 b4,
  tag <> [] -> clean tag -> hex_name hex -> hex_name head ->
  word day -> word time -> word zone -> Forall plain_char (day ++ time ++ zone) ->
  blank b1 -> blank b2 -> blank b4 ->
  exists v,
  get_versions repo_keywords (Some file)
    (Git (Some gdir) (Some (describe_output (T "v" ++ tag) n hex dirty ++ b1)) (Some (head ++ b2))
         (option_map (fun c => c ++ b3) count) (Some ((day ++ T " " ++ time ++ T " " ++ zone) ++ b4))) = VOk v
  /\ v_version v = checkout_version tag n hex dirty
  /\ import_get_versions (version_file (dict_of v)) = VOk (dict_of v)
  /\ version_of (dict_of v) = VOk (JText (checkout_version tag n hex dirty)).
Proof.
  intros file tag n hex dirty head count day time zone gdir b1 b2 b3 b4 Ht Hc Hh Hhead Hd Hti Hz Hp B1 B2 B4.
  eexists. split; [|split; [|]].
  - apply C64_checkout; auto.
    + destruct Hc as [Hc _]. rewrite Forall_forall in Hc. intros Hn. apply Hc in Hn. destruct Hn as [Hn _]. cbn in Hn. lia.
    + destruct Hhead as [Hne Hx]. split; [exact Hne|]. eapply Forall_impl; [|exact Hx]. apply hex_not_space.
  - reflexivity.
  - apply C73_import_partial. apply Forall_app in Hp. destruct Hp as [P1 Hp]. apply Forall_app in Hp. destruct Hp as [P2 P3].
    assert (Hv : clean (checkout_version tag n hex dirty)).
    { unfold checkout_version. destruct ((n =? 0)%N && negb dirty); [exact Hc|]. apply clean_app; [exact Hc|].
      repeat (apply Forall_app; split).
      - destruct (contains_plus tag); now apply Forall_T_plain.
      - eapply Forall_impl; [|apply nat_text_digits]. intros c Hd'. now apply hex_plain, digit_hex.
      - now apply Forall_T_plain.
      - destruct Hh as [_ Hh]. eapply Forall_impl; [|exact Hh]. apply hex_plain.
      - destruct dirty; [now apply Forall_T_plain|constructor]. }
    assert (Hf : clean head).
    { apply clean_ordinary. destruct Hhead as [_ Hx]. eapply Forall_impl; [|exact Hx]. apply hex_plain. }
    assert (Hdate : clean (day ++ T "T" ++ time ++ zone)).
    { apply clean_ordinary. repeat (apply Forall_app; split); trivial. now apply Forall_T_plain. }
    unfold clean_versions. cbn [v_version v_full v_error v_date clean_option]. tauto.
Qed.
Print Assumptions C73_release_partial.

(** The tag v1 quote 0 is a legal name for a git tag.  A package built from it cannot be
    imported: JSONDecodeError. *)
Theorem C73_import_refuted : exists g v,
  g = Git (Some (T ".git")) (Some (describe_output (T "v1""0") 0 (T "abc1234") false)) (Some (T "abc1234def"))
          None (Some (T "2020-11-16 10:00:00 +0200"))
  /\ get_versions repo_keywords (Some (T "/src/gcs/_version.py")) g = VOk v
  /\ v_version v = T "1""0"
  /\ import_get_versions (version_file (dict_of v)) = VRaise VValueError.
Proof. eexists _, _. repeat split; vm_compute; reflexivity. Qed.
Print Assumptions C73_import_refuted.

Example C73_case :
  let v := Versions (T "1.0+3.gabc1234.dirty") (Some (T "abc1234def")) (Some true) None
                    (Some (T "2020-11-16T10:00:00+0200")) in
  clean_versions v
  /\ import_get_versions (version_file (dict_of v)) = VOk (dict_of v)
  /\ versions_from_file (version_file (dict_of (Versions (T "1'''""\") None None None None)))
     = VOk (dict_of (Versions (T "1'''""\") None None None None)).
Proof.
  cbv zeta. split; [|split; vm_compute; reflexivity].
  assert (C : forall s, forallb (fun c => (32 <=? nat_of_ascii c)%nat && negb (Ascii.eqb c quote)
    && negb (Ascii.eqb c "\") && negb (Ascii.eqb c "'")) (T s) = true -> clean (T s)).
  { intros s Hs. now apply clean_ordinary, Forall_T_plain. }
  unfold clean_versions. cbn [v_version v_full v_error v_date clean_option]. repeat split; now apply C.
Qed.

(** * C74: setup.py and the package compute the same version. *)

(** The line of gcs/_version.py that sets a keyword: _version.py:26-28. *)
Definition keyword_line (name value : text) : text :=
  T "    " ++ name ++ T " = " ++ quote :: value ++ [quote].
Definition version_source (before after : list text) (refnames full date : text) : text :=
  join [newline] (before ++ [keyword_line (T "git_refnames") refnames; keyword_line (T "git_full") full;
                             keyword_line (T "git_date") date] ++ after).
(** Characters of a Python literal in double quotes that stand for themselves. *)
Definition literal (t : text) : Prop := ~ In quote t /\ ~ In "\"%char t /\ ~ In newline t.

Lemma split_join_lines lines : lines <> [] -> Forall (fun l => ~ In newline l) lines ->
  split_on newline (join [newline] lines) = lines.
Proof.
  intros Hne H. induction H as [|l ls Hl Hls IH]; [congruence|]. destruct ls as [|l2 ls].
  - now apply split_on_last.
  - change (join [newline] (l :: l2 :: ls)) with (l ++ newline :: join [newline] (l2 :: ls)).
    rewrite split_on_app by exact Hl. f_equal. apply IH. discriminate.
Qed.

Definition keyword_names : list text := [T "git_refnames"; T "git_full"; T "git_date"].

Lemma strip_keyword_line name value : In name keyword_names ->
  strip (keyword_line name value) = name ++ T " = " ++ quote :: value ++ [quote].
Proof.
  intros Hn. unfold keyword_line, strip.
  rewrite <- (app_nil_r (name ++ T " = " ++ quote :: value ++ [quote])) at 1.
  apply strip_by_pad; [repeat constructor|constructor|]. split.
  - destruct Hn as [<-|[<-|[<-|[]]]]; reflexivity.
  - rewrite !app_assoc. change (quote :: value ++ [quote]) with ((quote :: value) ++ [quote]).
    rewrite app_assoc, rev_app_distr. reflexivity.
Qed.

Lemma search_quoted_skip a r : ~ In "="%char a -> search_quoted (a ++ r) = search_quoted r.
Proof.
  induction a as [|c a IH]; intros H; [reflexivity|]. cbn [app search_quoted].
  destruct (Ascii.eqb_spec c "="); [exfalso; apply H; now left|]. apply IH. intros Ha. apply H. now right.
Qed.

Lemma search_keyword_line name value : In name keyword_names ->
  search_quoted (keyword_line name value) = Some value.
Proof.
  intros Hn. unfold keyword_line.
  change (T " = " ++ quote :: value ++ [quote]) with (T " " ++ "="%char :: " "%char :: quote :: value ++ [quote]).
  rewrite !app_assoc, search_quoted_skip.
  2:{ rewrite !in_app_iff. intros [[H|H]|H].
      - cbn in H. intuition discriminate.
      - destruct Hn as [<-|[<-|[<-|[]]]]; cbn in H; intuition discriminate.
      - cbn in H. intuition discriminate. }
  cbn [search_quoted]. rewrite Ascii.eqb_refl.
  change (lstrip_by is_space (" "%char :: quote :: value ++ [quote])) with (quote :: value ++ [quote]).
  cbn iota. rewrite Ascii.eqb_refl. rewrite rindex_suffix by discriminate. cbn [option_map].
  now rewrite firstn_app_len.
Qed.

Lemma step_same name value old : In name keyword_names ->
  keyword_step name (keyword_line name value) old = Some value.
Proof.
  intros Hn. unfold keyword_step. rewrite strip_keyword_line, search_keyword_line by exact Hn.
  replace (name ++ T " = " ++ quote :: value ++ [quote]) with ((name ++ T " =") ++ T " " ++ quote :: value ++ [quote])
    by (rewrite <- app_assoc; reflexivity).
  now rewrite starts_with_app.
Qed.

Lemma step_other name name' value old : In name keyword_names -> In name' keyword_names -> name <> name' ->
  keyword_step name (keyword_line name' value) old = old.
Proof.
  intros Hn Hn' Hd. unfold keyword_step. rewrite strip_keyword_line by exact Hn'.
  destruct Hn as [<-|[<-|[<-|[]]]]; destruct Hn' as [<-|[<-|[<-|[]]]]; try congruence; reflexivity.
Qed.

Lemma keyword_line_newline name value : In name keyword_names -> ~ In newline value ->
  ~ In newline (keyword_line name value).
Proof.
  intros Hn Hv. unfold keyword_line. rewrite !in_app_iff. intros [H|[H|[H|[H|H]]]].
  - cbn in H. intuition discriminate.
  - destruct Hn as [<-|[<-|[<-|[]]]]; cbn in H; intuition discriminate.
  - cbn in H. intuition discriminate.
  - discriminate H.
  - apply in_app_iff in H. destruct H as [H|[H|[]]]; [auto|discriminate H].
Qed.

Theorem C74_keywords : forall pre post refnames full date,
  Forall (fun l => ~ In newline l /\ other_line l) (pre ++ post) ->
  ~ In newline refnames -> ~ In newline full -> ~ In newline date ->
  git_get_keywords (version_source pre post refnames full date)
  = Keywords (Some refnames) (Some full) (Some date).
Proof.
  intros pre post r f d Hl Hr Hf Hd. unfold git_get_keywords, version_source.
  apply Forall_app in Hl. destruct Hl as [H1 H2].
  rewrite split_join_lines.
  2:{ destruct pre; discriminate. }
  2:{ repeat (apply Forall_app; split).
      - eapply Forall_impl; [|exact H1]. now intros l [Hx _].
      - repeat constructor; (apply keyword_line_newline; [unfold keyword_names; cbn [In]; tauto|assumption]).
      - eapply Forall_impl; [|exact H2]. now intros l [Hx _]. }
  assert (G : forall name v1 v2 v3, In name keyword_names ->
     keyword_lines name (pre ++ [keyword_line (T "git_refnames") v1; keyword_line (T "git_full") v2;
        keyword_line (T "git_date") v3] ++ post)
     = keyword_step name (keyword_line (T "git_date") v3) (keyword_step name (keyword_line (T "git_full") v2)
         (keyword_step name (keyword_line (T "git_refnames") v1) None))).
  { intros name v1 v2 v3 Hn. unfold keyword_lines. rewrite !fold_left_app.
    rewrite (keyword_other name pre Hn); [|eapply Forall_impl; [|exact H1]; now intros l [_ Hx]]. cbn [fold_left].
    rewrite (keyword_other name post Hn); [reflexivity|eapply Forall_impl; [|exact H2]; now intros l [_ Hx]]. }
  rewrite !G by (unfold keyword_names; cbn [In]; tauto).
  rewrite ?step_same by (unfold keyword_names; cbn [In]; tauto).
  rewrite !(step_other (T "git_refnames")) by (discriminate || (unfold keyword_names; cbn [In]; tauto)).
  rewrite !(step_other (T "git_full")) by (discriminate || (unfold keyword_names; cbn [In]; tauto)).
  now rewrite ?step_same by (unfold keyword_names; cbn [In]; tauto).
Qed.
Print Assumptions C74_keywords.

Lemma search_none pre post s : (forall a b, s <> a ++ pre ++ b) -> search_between pre post s = None.
Proof.
  induction s as [|c s IH]; intros H; cbn [search_between].
  - destruct (starts_with pre []) eqn:E; [|reflexivity]. apply starts_with_iff in E. destruct E as (r & E).
    exfalso. now apply (H [] r).
  - destruct (starts_with pre (c :: s)) eqn:E.
    + apply starts_with_iff in E. destruct E as (r & E). exfalso. now apply (H [] r).
    + apply IH. intros a b E2. apply (H (c :: a) b). now rewrite E2.
Qed.

(** setup.py reads the keywords from the text of _version.py, the package has them
    as Python strings. *)
Theorem C74_same_version : forall pre post refnames full date file g,
  Forall (fun l => ~ In newline l /\ other_line l) (pre ++ post) ->
  literal refnames -> literal full -> literal date ->
  (forall a b, version_source pre post refnames full date <> a ++ T "version_json = '''" ++ b) ->
  setup_get_versions (version_source pre post refnames full date) g
  = vbind (get_versions (Keywords (Some refnames) (Some full) (Some date)) (Some file) g)
          (fun v => VOk (dict_of v)).
Proof.
  intros pre post r f d file g Hl (_ & _ & Hr) (_ & _ & Hf) (_ & _ & Hd) Hno.
  unfold setup_get_versions.
  remember (Keywords (Some r) (Some f) (Some d)) as k eqn:Hk.
  assert (Ek : git_get_keywords (version_source pre post r f d) = k)
    by (rewrite Hk; exact (C74_keywords pre post r f d Hl Hr Hf Hd)).
  rewrite Ek.
  assert (E : versions_from_file (version_source pre post r f d) = VRaise NotThisMethod).
  { unfold versions_from_file. rewrite !search_none; [reflexivity|..];
      intros a b E; rewrite E in Hno; eapply Hno; rewrite <- app_assoc; reflexivity. }
  rewrite E. unfold get_versions, get_versions_with, cfg_parentdir_prefix.
  destruct (git_versions_from_keywords k cfg_tag_prefix) as [v0|[]];
    try reflexivity.
  cbn [otherwise vbind T list_ascii_of_string].
  destruct (git_pieces_from_vcs cfg_tag_prefix g) as [p|[]]; try reflexivity.
  cbn [vbind]. destruct (render p cfg_style) as [v1|[]]; reflexivity.
Qed.
Print Assumptions C74_same_version.

(** The lines of gcs/_version.py around the keywords. *)
Example C74_case :
  let pre := [T "def get_keywords():"] in
  let post := [T "    keywords = {}"; T "            if line.strip().startswith(""git_full ="")"] in
  Forall (fun l => ~ In newline l /\ other_line l) (pre ++ post)
  /\ literal (T " (HEAD -> master, tag: v0.1)") /\ literal (T "abc") /\ literal (T "2020-11-16 10:00:00 +0200")
  /\ version_source pre post (T "$Format:%d$") (T "$Format:%H$") (T "$Format:%ci$") =
     join [newline] [T "def get_keywords():"; T "    git_refnames = ""$Format:%d$"""; T "    git_full = ""$Format:%H$""";
       T "    git_date = ""$Format:%ci$"""; T "    keywords = {}";
       T "            if line.strip().startswith(""git_full ="")"]
  /\ vbind (setup_get_versions (version_source pre post (T " (HEAD -> master, tag: v0.1)") (T "abc") (T "d"))
        (Git None None None None None)) version_of = VOk (JText (T "0.1")).
Proof.
  cbv zeta. split.
  { repeat constructor; try (intros name [<-|[<-|[<-|[]]]]; reflexivity); cbn; intuition discriminate. }
  repeat split; try (cbn; intuition discriminate); vm_compute; reflexivity.
Qed.

(** C75: what the version text of each rendering style tells about the checkout. *)
From Coq Require Import String Ascii ZArith NArith Bool Lia List.
From Verif Require Import Version VersionFacts PropVersion.
Import ListNotations.
Open Scope list_scope.

(** * Specification *)

(** The styles render() accepts, and their names in setup.cfg. *)
Inductive style := Pep440 | Pep440Pre | Pep440Post | Pep440Old | Describe | DescribeLong.
Definition name (s : style) : text :=
  match s with
  | Pep440 => T "pep440" | Pep440Pre => T "pep440-pre" | Pep440Post => T "pep440-post"
  | Pep440Old => T "pep440-old" | Describe => T "git-describe" | DescribeLong => T "git-describe-long"
  end.

(** What is known from a version: the tag, the distance, the dirty flag and the
    abbreviated commit, each if it can be read off. *)
Record info := Info { i_tag : option text; i_distance : option Z; i_dirty : option bool; i_commit : option text }.
Definition only_if (b : bool) {A} (x : A) : option A := if b then Some x else None.
Definition known (s : style) (p : pieces) : info :=
  let untagged := match p_tag p with None => true | _ => false end in
  let moved := negb (p_distance p =? 0)%Z in
  match s with
  | Pep440 | Pep440Post =>
      Info (p_tag p) (Some (p_distance p)) (Some (p_dirty p)) (only_if (untagged || moved || p_dirty p) (p_short p))
  | Pep440Pre => Info (p_tag p) (Some (p_distance p)) None None
  | Pep440Old => Info (p_tag p) (Some (p_distance p)) (Some (p_dirty p)) None
  | Describe =>
      Info (p_tag p) (only_if (negb untagged) (p_distance p)) (Some (p_dirty p)) (only_if (untagged || moved) (p_short p))
  | DescribeLong =>
      Info (p_tag p) (only_if (negb untagged) (p_distance p)) (Some (p_dirty p)) (Some (p_short p))
  end.

(** Checkouts: the tag is not taken for the text that the styles add, for an
    abbreviated commit or for the 0 of an untagged tree. *)
Definition release (t : text) : Prop :=
  t <> [] /\ t <> T "0" /\ ~ In "+"%char t /\ ~ In "-"%char t
  /\ ~ (exists a b, t = a ++ T ".post" ++ b) /\ ~ Forall (fun c => is_hex c = true) t.
Definition checkout (p : pieces) : Prop :=
  (0 <= p_distance p)%Z /\ Forall (fun c => is_hex c = true) (p_short p)
  /\ match p_tag p with None => True | Some t => release t end.

(** * Facts *)
Lemma split_post t t' x x' :
  ~ (exists a b, t = a ++ T ".post" ++ b) -> ~ (exists a b, t' = a ++ T ".post" ++ b) ->
  t ++ T ".post" ++ x = t' ++ T ".post" ++ x' -> t = t' /\ x = x'.
Proof.
  assert (S : forall u y y', ~ (exists a b, u = a ++ T ".post" ++ b) -> u <> [] ->
              T ".post" ++ y <> u ++ T ".post" ++ y').
  { intros u y y' Hu Hne E. destruct u as [|c0 u]; [congruence|].
    unfold T in E. cbn [app list_ascii_of_string] in E. injection E as <- E.
    destruct u as [|c1 u]; cbn [app] in E; [discriminate E|]. injection E as <- E.
    destruct u as [|c2 u]; cbn [app] in E; [discriminate E|]. injection E as <- E.
    destruct u as [|c3 u]; cbn [app] in E; [discriminate E|]. injection E as <- E.
    destruct u as [|c4 u]; cbn [app] in E; [discriminate E|]. injection E as <- E.
    apply Hu. exists [], u. reflexivity. }
  revert t'. induction t as [|c t IH]; intros t' Ht Ht' E.
  - destruct t' as [|c' t']; [split; [reflexivity|]; cbn [app] in E; now apply app_inv_head in E|].
    exfalso. eapply S; [exact Ht'|discriminate|exact E].
  - destruct t' as [|c' t']; [exfalso; eapply S; [exact Ht|discriminate|symmetry; exact E]|].
    cbn [app] in E. injection E as -> E. apply IH in E.
    + destruct E as [-> ->]. auto.
    + intros (a & b & ->). apply Ht. now exists (c' :: a), b.
    + intros (a & b & ->). apply Ht'. now exists (c' :: a), b.
Qed.

Lemma no_post t x : ~ (exists a b, t = a ++ T ".post" ++ b) -> t <> t ++ T ".post" ++ x.
Proof. intros _ E. apply (f_equal (@length _)) in E. rewrite !app_length in E. cbn in E. lia. Qed.

(** The part before a separator. *)
Lemma span_split (f : ascii -> bool) a a' b b' : Forall (fun c => f c = true) a -> Forall (fun c => f c = true) a' ->
  match b with [] => True | c :: _ => f c = false end -> match b' with [] => True | c :: _ => f c = false end ->
  a ++ b = a' ++ b' -> a = a' /\ b = b'.
Proof.
  intros Ha Ha' Hb Hb' E. pose proof (span_app f a b Ha Hb) as S. rewrite E, (span_app f a' b' Ha' Hb') in S.
  injection S as <- <-. auto.
Qed.

Lemma distance_split p q b b' : (0 <= p_distance p)%Z -> (0 <= p_distance q)%Z ->
  match b with [] => True | c :: _ => is_digit c = false end -> match b' with [] => True | c :: _ => is_digit c = false end ->
  int_text (p_distance p) ++ b = int_text (p_distance q) ++ b' -> p_distance p = p_distance q /\ b = b'.
Proof.
  intros Hp Hq Hb Hb' E. rewrite !int_text_nonneg in E by assumption.
  apply (span_split is_digit) in E; auto using nat_text_digits. destruct E as [E ->].
  apply nat_text_inj in E. split; [lia|reflexivity].
Qed.

Lemma when_inj (d d' : bool) s : s <> ""%string -> when d s = when d' s -> d = d'.
Proof. destruct s as [|c s]; [congruence|]. destruct d, d'; cbn; congruence. Qed.

Lemma hex_no_dash h : Forall (fun c => is_hex c = true) h -> ~ In "-"%char h.
Proof. intros H Hin. rewrite Forall_forall in H. now apply H in Hin. Qed.

Lemma hex_dirty h h' d d' : Forall (fun c => is_hex c = true) h -> Forall (fun c => is_hex c = true) h' ->
  h ++ when d "-dirty" = h' ++ when d' "-dirty" -> h = h' /\ d = d'.
Proof.
  intros H H' E. apply (span_split is_hex) in E; auto; try (destruct d; cbn; auto; fail); try (destruct d'; cbn; auto; fail).
  destruct E as [-> E]. split; [reflexivity|]. eapply when_inj; [|exact E]. discriminate.
Qed.

Lemma away_iff p : away p = negb (p_distance p =? 0)%Z || p_dirty p.
Proof. reflexivity. Qed.

(** * The styles that end in text after .post *)
(** [tail p] follows the distance. *)
Definition post_form (after : text) (tail : pieces -> text) (moved : pieces -> bool) (p : pieces) : text :=
  match p_tag p with
  | Some t => if moved p then t ++ T ".post" ++ after ++ int_text (p_distance p) ++ tail p else t
  | None => T "0" ++ T ".post" ++ after ++ int_text (p_distance p) ++ tail p
  end.

Lemma zero_no_post : ~ (exists a b, T "0" = a ++ T ".post" ++ b).
Proof. intros (a & b & E). apply (f_equal (@length _)) in E. rewrite !app_length in E. cbn in E. lia. Qed.

Lemma post_form_inj after tail moved p q : checkout p -> checkout q ->
  (forall r, match tail r with [] => True | c :: _ => is_digit c = false end) ->
  post_form after tail moved p = post_form after tail moved q ->
  p_tag p = p_tag q
  /\ (moved p = true \/ p_tag p = None -> p_distance p = p_distance q /\ tail p = tail q)
  /\ (p_tag p <> None -> moved p = moved q).
Proof.
  intros (Dp & _ & Tp) (Dq & _ & Tq) Ht E. unfold post_form in E.
  assert (P : forall (t t' : text) d d',
     ~ (exists a b, t = a ++ T ".post" ++ b) -> ~ (exists a b, t' = a ++ T ".post" ++ b) ->
     (0 <= d)%Z -> (0 <= d')%Z ->
     t ++ T ".post" ++ after ++ int_text d ++ tail p = t' ++ T ".post" ++ after ++ int_text d' ++ tail q ->
     t = t' /\ d = d' /\ tail p = tail q).
  { intros t t' d d' H H' Hd Hd' Et. apply split_post in Et; auto. destruct Et as [-> Et]. apply app_inv_head in Et.
    split; [reflexivity|].
    rewrite !int_text_nonneg in Et by assumption.
    apply (span_split is_digit) in Et; try apply nat_text_digits; try apply Ht. destruct Et as [Et ->].
    apply nat_text_inj in Et. split; [lia|reflexivity]. }
  destruct (p_tag p) as [t|], (p_tag q) as [t'|].
  - destruct Tp as (_ & _ & _ & _ & Np & _), Tq as (_ & _ & _ & _ & Nq & _).
    destruct (moved p), (moved q).
    + apply P in E; auto. destruct E as (-> & E1 & E2). auto.
    + exfalso. apply Nq. now exists t, (after ++ int_text (p_distance p) ++ tail p).
    + exfalso. apply Np. now exists t', (after ++ int_text (p_distance q) ++ tail q).
    + subst t'. split; [reflexivity|]. split; [intros [H|H]; discriminate|auto].
  - exfalso. destruct Tp as (_ & N0 & _ & _ & Np & _). destruct (moved p).
    + apply P in E; auto using zero_no_post. now destruct E as [-> _].
    + apply Np. now exists (T "0"), (after ++ int_text (p_distance q) ++ tail q).
  - exfalso. destruct Tq as (_ & N0 & _ & _ & Nq & _). destruct (moved q).
    + apply P in E; auto using zero_no_post. now destruct E as [<- _].
    + apply Nq. now exists (T "0"), (after ++ int_text (p_distance p) ++ tail p).
  - apply P in E; auto using zero_no_post. destruct E as (_ & E1 & E2). split; [reflexivity|]. split; [auto|congruence].
Qed.

Lemma tagged_checkout p : checkout p -> tagged p = p_tag p.
Proof.
  intros (_ & _ & H). unfold tagged. destruct (p_tag p) as [[|c t]|]; auto. now destruct H.
Qed.

Lemma plus_release t : release t -> plus_or_dot t = T "+".
Proof.
  intros (_ & _ & H & _). unfold plus_or_dot. now replace (has_char "+" t) with false by (symmetry; now apply has_char_false).
Qed.

Lemma pre_form p : checkout p -> render_pep440_pre p
  = post_form (T ".dev") (fun _ => []) (fun p => negb (p_distance p =? 0)%Z) p.
Proof.
  intros H. unfold render_pep440_pre, post_form. rewrite (tagged_checkout p H).
  destruct (p_tag p); rewrite app_nil_r; reflexivity.
Qed.
Lemma old_form p : checkout p -> render_pep440_old p = post_form [] (fun p => when (p_dirty p) ".dev0") away p.
Proof.
  intros H. unfold render_pep440_old, post_form. rewrite (tagged_checkout p H). destruct (p_tag p); reflexivity.
Qed.
Lemma post_form_eq p : checkout p -> render_pep440_post p
  = post_form [] (fun p => when (p_dirty p) ".dev0" ++ T "+g" ++ p_short p) away p.
Proof.
  intros H. unfold render_pep440_post, post_form. rewrite (tagged_checkout p H).
  destruct H as (_ & _ & H). destruct (p_tag p) as [t|]; [|reflexivity]. now rewrite (plus_release t H).
Qed.

(** * git-describe *)
(** A text without a dash, then a dash and a first character. *)
Lemma split_dash a a' b b' : ~ In "-"%char a -> ~ In "-"%char a' ->
  match b with [] => True | c :: _ => c = "-"%char end -> match b' with [] => True | c :: _ => c = "-"%char end ->
  a ++ b = a' ++ b' -> a = a' /\ b = b'.
Proof.
  intros Ha Ha' Hb Hb' E. apply (span_split (fun c => negb (Ascii.eqb c "-"))) in E; auto.
  - apply Forall_forall. intros c Hc. destruct (Ascii.eqb_spec c "-"); [subst; tauto|reflexivity].
  - apply Forall_forall. intros c Hc. destruct (Ascii.eqb_spec c "-"); [subst; tauto|reflexivity].
  - destruct b; [exact I|]. now subst.
  - destruct b'; [exact I|]. now subst.
Qed.

Definition describe_tail (long : bool) (p : pieces) : text :=
  (if match p_tag p with Some _ => long || negb (p_distance p =? 0)%Z | None => false end
   then T "-" ++ int_text (p_distance p) ++ T "-g" ++ p_short p else [])
  ++ when (p_dirty p) "-dirty".
Definition describe_head (p : pieces) : text := match p_tag p with Some t => t | None => p_short p end.

Lemma describe_form p : checkout p ->
  render_git_describe p = describe_head p ++ describe_tail false p
  /\ render_git_describe_long p = describe_head p ++ describe_tail true p.
Proof.
  intros H. unfold render_git_describe, render_git_describe_long, describe_head, describe_tail.
  rewrite (tagged_checkout p H). destruct (p_tag p) as [t|]; cbn [orb]; [|now rewrite app_nil_l].
  split.
  - destruct (negb _); rewrite <- ?app_assoc; reflexivity.
  - rewrite <- ?app_assoc; reflexivity.
Qed.

Lemma describe_inj long p q : checkout p -> checkout q ->
  describe_head p ++ describe_tail long p = describe_head q ++ describe_tail long q ->
  p_tag p = p_tag q /\ p_dirty p = p_dirty q
  /\ (p_tag p <> None -> p_distance p = p_distance q)
  /\ (p_tag p = None \/ long = true \/ p_distance p <> 0%Z -> p_short p = p_short q).
Proof.
  intros (Dp & Sp & Tp) (Dq & Sq & Tq) E. apply split_dash in E.
  - destruct E as [E1 E2].
    assert (Et : p_tag p = p_tag q).
    { unfold describe_head in E1. destruct (p_tag p) as [t|], (p_tag q) as [t'|]; subst; auto;
        exfalso; [destruct Tp as (_ & _ & _ & _ & _ & F)|destruct Tq as (_ & _ & _ & _ & _ & F)]; auto. }
    split; [exact Et|]. unfold describe_head in E1. unfold describe_tail in E2. rewrite Et in *.
    assert (Hs : forall r, Forall (fun c => is_hex c = true) (p_short r) -> True) by auto.
    assert (W : forall (d : bool) x, when d "-dirty" <> T "-" ++ int_text (p_distance x) ++ T "-g" ++ p_short x ++ when (p_dirty x) "-dirty"
                \/ ~ (0 <= p_distance x)%Z).
    { intros d x. destruct (Z_le_gt_dec 0 (p_distance x)) as [Hx|Hx]; [left|right; lia].
      rewrite int_text_nonneg by exact Hx. pose proof (nat_text_nonempty (Z.to_N (p_distance x))) as Hn.
      pose proof (nat_text_digits (Z.to_N (p_distance x))) as Hd.
      destruct (nat_text (Z.to_N (p_distance x))) as [|c w]; [congruence|]. inversion Hd; subst.
      destruct d; [|discriminate]. cbn. intros Ew. injection Ew as <- _. discriminate. }
    assert (K : T "-" ++ int_text (p_distance p) ++ T "-g" ++ p_short p ++ when (p_dirty p) "-dirty"
                = T "-" ++ int_text (p_distance q) ++ T "-g" ++ p_short q ++ when (p_dirty q) "-dirty" ->
                p_distance p = p_distance q /\ p_short p = p_short q /\ p_dirty p = p_dirty q).
    { intros Ek. apply app_inv_head in Ek. apply distance_split in Ek; try assumption; try reflexivity.
      destruct Ek as [-> Ek]. apply app_inv_head in Ek. apply hex_dirty in Ek; auto. }
    destruct (p_tag q) as [t|].
    + destruct (long || negb (p_distance p =? 0)%Z) eqn:Lp, (long || negb (p_distance q =? 0)%Z) eqn:Lq;
        rewrite <- ?app_assoc in E2.
      * apply K in E2. destruct E2 as (E3 & E4 & E5). auto.
      * exfalso. cbn [app] in E2. destruct (W (p_dirty q) p) as [H|H]; [now apply H|lia].
      * exfalso. cbn [app] in E2. destruct (W (p_dirty p) q) as [H|H]; [now apply H|lia].
      * cbn [app] in E2. apply when_inj in E2; [|discriminate]. apply orb_false_iff in Lp, Lq.
        destruct Lp as [L1 L2], Lq as [_ L3]. split; [exact E2|]. split; [intros _; lia|].
        intros [H|[H|H]]; [discriminate|congruence|lia].
    + cbn [app] in E2. apply when_inj in E2; [|discriminate]. split; [exact E2|]. split; [congruence|auto].
  - unfold describe_head. destruct (p_tag p); [apply Tp|now apply hex_no_dash].
  - unfold describe_head. destruct (p_tag q); [apply Tq|now apply hex_no_dash].
  - unfold describe_tail. destruct (p_tag p); [destruct (long || _)|]; destruct (p_dirty p); cbn; auto.
  - unfold describe_tail. destruct (p_tag q); [destruct (long || _)|]; destruct (p_dirty q); cbn; auto.
Qed.

(** * C75 *)
(** Equal versions: equal as far as the style tells. *)
Theorem C75_styles : forall s p q, checkout p -> checkout q ->
  (render_style p (name s) = render_style q (name s) <-> known s p = known s q).
Proof.
  intros s p q Hp Hq.
  assert (AW : forall r, away r = false -> p_distance r = 0%Z /\ p_dirty r = false).
  { intros r Hr. rewrite away_iff in Hr. apply orb_false_iff in Hr. destruct Hr as [H1 H2]. split; [lia|exact H2]. }
  split.
  - intros E. destruct s; cbn [name] in E.
    + assert (E' : render_pep440 p = render_pep440 q) by (cbn in E; congruence). clear E.
      apply C65_version_identifies in E'.
      * destruct E' as (E1 & E2 & E3 & E4). unfold known. rewrite <- E1, <- E2, <- E3. f_equal.
        destruct (p_tag p); cbn [orb].
        -- destruct (negb _) eqn:Z0; cbn [orb only_if]; [rewrite E4 by (right; left; lia); reflexivity|].
           destruct (p_dirty p); cbn [only_if]; [rewrite E4 by auto; reflexivity|reflexivity].
        -- cbn [only_if]. rewrite E4 by auto. reflexivity.
      * destruct Hp as (H1 & H2 & H3). repeat split; auto; destruct (p_tag p); auto; split; apply H3.
      * destruct Hq as (H1 & H2 & H3). repeat split; auto; destruct (p_tag q); auto; split; apply H3.
    + assert (E' : render_pep440_pre p = render_pep440_pre q) by (cbn in E; congruence). clear E.
      rewrite !pre_form in E' by assumption. apply post_form_inj in E'; auto. destruct E' as (E1 & E2 & E3).
      unfold known. f_equal; [exact E1|]. f_equal.
      destruct (p_tag p) eqn:Tp; [|now apply E2; auto].
      specialize (E3 ltac:(discriminate)). destruct (negb (p_distance p =? 0)%Z) eqn:Zp.
      * now apply E2; auto.
      * lia.
    + assert (E' : render_pep440_post p = render_pep440_post q) by (cbn in E; congruence). clear E.
      rewrite !post_form_eq in E' by assumption. apply post_form_inj in E'; auto.
      2:{ intros r. now destruct (p_dirty r). }
      destruct E' as (E1 & E2 & E3).
      assert (TS : forall r, Forall (fun c => is_hex c = true) (p_short r) -> p_short r = p_short r) by auto.
      assert (TI : when (p_dirty p) ".dev0" ++ T "+g" ++ p_short p = when (p_dirty q) ".dev0" ++ T "+g" ++ p_short q ->
                   p_dirty p = p_dirty q /\ p_short p = p_short q).
      { intros Et. destruct (p_dirty p), (p_dirty q); cbn in Et; try discriminate; split; congruence. }
      unfold known. rewrite <- E1. destruct (p_tag p) eqn:Tp.
      * specialize (E3 ltac:(discriminate)). destruct (away p) eqn:Ap.
        -- destruct E2 as [E4 E5]; [auto|]. apply TI in E5. destruct E5 as [E5 E6]. now rewrite E4, E5, E6.
        -- symmetry in E3. apply AW in Ap, E3. destruct Ap as [P1 P2], E3 as [Q1 Q2]. rewrite P1, P2, Q1, Q2. reflexivity.
      * destruct E2 as [E4 E5]; [auto|]. apply TI in E5. destruct E5 as [E5 E6]. now rewrite E4, E5, E6.
    + assert (E' : render_pep440_old p = render_pep440_old q) by (cbn in E; congruence). clear E.
      rewrite !old_form in E' by assumption. apply post_form_inj in E'; auto.
      2:{ intros r. now destruct (p_dirty r). }
      destruct E' as (E1 & E2 & E3). unfold known. rewrite <- E1. destruct (p_tag p) eqn:Tp.
      * specialize (E3 ltac:(discriminate)). destruct (away p) eqn:Ap.
        -- destruct E2 as [E4 E5]; [auto|]. apply when_inj in E5; [|discriminate]. now rewrite E4, E5.
        -- symmetry in E3. apply AW in Ap, E3. destruct Ap as [P1 P2], E3 as [Q1 Q2]. now rewrite P1, P2, Q1, Q2.
      * destruct E2 as [E4 E5]; [auto|]. apply when_inj in E5; [|discriminate]. now rewrite E4, E5.
    + assert (E' : render_git_describe p = render_git_describe q) by (cbn in E; congruence). clear E.
      destruct (describe_form p Hp) as [Fp _], (describe_form q Hq) as [Fq _]. rewrite Fp, Fq in E'.
      apply describe_inj in E'; auto. destruct E' as (E1 & E2 & E3 & E4). unfold known. rewrite <- E1, <- E2.
      destruct (p_tag p); cbn [negb orb only_if].
      * rewrite <- E3 by discriminate. f_equal. destruct (negb _) eqn:Zp; cbn [only_if]; [|reflexivity].
        rewrite E4 by (right; right; lia). reflexivity.
      * now rewrite E4 by auto.
    + assert (E' : render_git_describe_long p = render_git_describe_long q) by (cbn in E; congruence). clear E.
      destruct (describe_form p Hp) as [_ Fp], (describe_form q Hq) as [_ Fq]. rewrite Fp, Fq in E'.
      apply describe_inj in E'; auto. destruct E' as (E1 & E2 & E3 & E4). unfold known. rewrite <- E1, <- E2.
      destruct (p_tag p); cbn [negb orb only_if].
      * rewrite <- E3 by discriminate. now rewrite E4 by auto.
      * now rewrite E4 by auto.
  - destruct p as [tp dp sp lp yp ep], q as [tq dq sq lq yq eq].
    destruct Hp as (_ & _ & Tp), Hq as (_ & _ & Tq). cbn [p_tag] in Tp, Tq.
    destruct s; unfold known; cbn; intros E; f_equal;
      unfold render_pep440, render_pep440_pre, render_pep440_post, render_pep440_old, render_git_describe,
        render_git_describe_long, tagged, away; cbn.
    + injection E as -> -> -> E. destruct tq as [t|]; cbn in E.
      * destruct t as [|c t]; [now destruct Tp|]. destruct (negb (dq =? 0)%Z || yq); cbn in E; [|reflexivity].
        injection E as ->. reflexivity.
      * injection E as ->. reflexivity.
    + injection E as -> ->. reflexivity.
    + injection E as -> -> -> E. destruct tq as [t|]; cbn in E.
      * destruct t as [|c t]; [now destruct Tp|]. destruct (negb (dq =? 0)%Z || yq); cbn in E; [|reflexivity].
        injection E as ->. reflexivity.
      * injection E as ->. reflexivity.
    + injection E as -> -> ->. reflexivity.
    + injection E as -> E1 -> E2. destruct tq as [t|]; cbn in E1, E2.
      * destruct t as [|c t]; [now destruct Tp|]. injection E1 as ->. destruct (negb (dq =? 0)%Z); cbn in E2; [|reflexivity].
        injection E2 as ->. reflexivity.
      * injection E2 as ->. reflexivity.
    + injection E as -> E1 -> ->. destruct tq as [t|]; cbn in E1; [|reflexivity].
      destruct t as [|c t]; [now destruct Tp|]. now injection E1 as ->.
Qed.

(** The names in setup.cfg: these six, the empty text and default stand for a
    style; every other name is rejected. *)
Theorem C75_names : forall p v, (exists r, render_style p v = VOk r) <->
  v = [] \/ v = T "default" \/ exists s, v = name s.
Proof.
  assert (TE : forall a b : text, text_eqb a b = true <-> a = b).
  { induction a as [|x a IH]; intros [|y b]; cbn; split; try discriminate; auto.
    - intros H. apply andb_true_iff in H. destruct H as [H1 H2]. apply Ascii.eqb_eq in H1. apply IH in H2. congruence.
    - intros H. injection H as -> ->. rewrite Ascii.eqb_refl. now apply IH. }
  intros p v. split.
  - intros [r E]. unfold render_style in E.
    destruct (text_eqb v (T "")) eqn:E1; [apply TE in E1; auto|].
    destruct (text_eqb v (T "default")) eqn:E2; [apply TE in E2; auto|].
    destruct (text_eqb v (T "pep440")) eqn:E3; [apply TE in E3; right; right; now exists Pep440|].
    destruct (text_eqb v (T "pep440-pre")) eqn:E4; [apply TE in E4; right; right; now exists Pep440Pre|].
    destruct (text_eqb v (T "pep440-post")) eqn:E5; [apply TE in E5; right; right; now exists Pep440Post|].
    destruct (text_eqb v (T "pep440-old")) eqn:E6; [apply TE in E6; right; right; now exists Pep440Old|].
    destruct (text_eqb v (T "git-describe")) eqn:E7; [apply TE in E7; right; right; now exists Describe|].
    destruct (text_eqb v (T "git-describe-long")) eqn:E8; [apply TE in E8; right; right; now exists DescribeLong|].
    cbn in E. discriminate.
  - intros [->|[->|[s ->]]]; [| |destruct s]; eexists; reflexivity.
Qed.
Print Assumptions C75_styles.
Print Assumptions C75_names.

(** A modified tree three commits after the tag 1.0, in all styles. *)
Example C75_case :
  let p := Pieces (Some (T "1.0")) 3 (T "0123abc") (T "0123abcdef") true None in
  checkout p
  /\ map (fun s => render_style p (name s)) [Pep440; Pep440Pre; Pep440Post; Pep440Old; Describe; DescribeLong]
     = map (fun s => VOk (T s)) ["1.0+3.g0123abc.dirty"; "1.0.post.dev3"; "1.0.post3.dev0+g0123abc";
          "1.0.post3.dev0"; "1.0-3-g0123abc-dirty"; "1.0-3-g0123abc-dirty"]%string.
Proof.
  split; [|reflexivity]. split; [cbn; lia|]. split; [repeat constructor|].
  repeat split; try discriminate.
  - cbn. intuition discriminate.
  - cbn. intuition discriminate.
  - intros (a & b & E). apply (f_equal (@length _)) in E. rewrite !app_length in E. cbn in E. lia.
  - intros H. inversion H as [|? ? _ H1]; subst. inversion H1 as [|? ? H2 _]; subst. discriminate.
Qed.

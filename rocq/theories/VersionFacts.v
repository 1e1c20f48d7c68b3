(** Lemmas about the string operations of Version.v. *)
From Coq Require Import String Ascii ZArith NArith Bool Lia List.
From Coq Require Import DecimalString DecimalN DecimalPos Sorting.Sorted.
From Verif Require Import Version.
Import ListNotations.
Open Scope list_scope.

Lemma T_app a b : T (a ++ b)%string = T a ++ T b.
Proof. unfold T. induction a; cbn; congruence. Qed.

Lemma starts_with_app p r : starts_with p (p ++ r) = true.
Proof. induction p as [|a p IH]; cbn; [reflexivity|]. now rewrite Ascii.eqb_refl, IH. Qed.

Lemma starts_with_iff p s : starts_with p s = true <-> exists r, s = p ++ r.
Proof.
  split.
  - revert s. induction p as [|a p IH]; intros s H; [now exists s|]. destruct s as [|b s]; [discriminate|].
    cbn in H. apply andb_prop in H. destruct H as [H1 H2]. apply Ascii.eqb_eq in H1. subst b.
    destruct (IH s H2) as [r ->]. now exists r.
  - intros [r ->]. apply starts_with_app.
Qed.

Lemma skipn_app_len {A} (p r : list A) : skipn (length p) (p ++ r) = r.
Proof. induction p; cbn; auto. Qed.
Lemma firstn_app_len {A} (p r : list A) : firstn (length p) (p ++ r) = p.
Proof. induction p; cbn; congruence. Qed.

Lemma ends_with_app p r : ends_with p (r ++ p) = true.
Proof. unfold ends_with. rewrite rev_app_distr. apply starts_with_app. Qed.

Lemma ends_with_iff p s : ends_with p s = true <-> exists r, s = r ++ p.
Proof.
  unfold ends_with. rewrite starts_with_iff. split.
  - intros [r E]. exists (rev r). rewrite <- (rev_involutive s), E, rev_app_distr. now rewrite rev_involutive.
  - intros [r ->]. exists (rev r). apply rev_app_distr.
Qed.

Lemma ends_with_last p c s d : ends_with (p ++ [c]) (s ++ [d]) = true -> c = d.
Proof.
  rewrite ends_with_iff. intros [r E]. rewrite app_assoc in E. now apply app_inj_tail in E.
Qed.

(** The suffix is the last occurrence. *)
Lemma rindex_from_none k p s : (length s < length p)%nat -> rindex_from k p s = None.
Proof.
  revert k. induction s as [|c s IH]; intros k H; cbn [rindex_from].
  - destruct p; [cbn in H; lia|reflexivity].
  - rewrite IH by (cbn in H; lia). destruct (starts_with p (c :: s)) eqn:E; [|reflexivity].
    apply starts_with_iff in E. destruct E as [r E]. apply (f_equal (@length _)) in E.
    rewrite app_length in E. lia.
Qed.

Lemma rindex_from_suffix p r : p <> [] -> forall k, rindex_from k p (r ++ p) = Some (k + length r)%nat.
Proof.
  intros Hp. induction r as [|c r IH]; intros k.
  - cbn [app length]. destruct p as [|a p]; [congruence|]. cbn [rindex_from].
    rewrite rindex_from_none by (cbn; lia). rewrite <- (app_nil_r (a :: p)) at 2.
    rewrite starts_with_app. now rewrite Nat.add_0_r.
  - cbn [app rindex_from length]. rewrite IH. f_equal. lia.
Qed.

Lemma rindex_suffix p r : p <> [] -> rindex p (r ++ p) = Some (length r).
Proof. intros H. unfold rindex. now rewrite rindex_from_suffix. Qed.

Lemma has_char_iff c s : has_char c s = true <-> In c s.
Proof.
  unfold has_char. rewrite existsb_exists. split.
  - intros (x & Hx & E). apply Ascii.eqb_eq in E. now subst x.
  - intros H. exists c. split; [exact H|apply Ascii.eqb_refl].
Qed.
Lemma has_char_false c s : has_char c s = false <-> ~ In c s.
Proof. rewrite <- has_char_iff. destruct (has_char c s); split; congruence. Qed.

(** ** strip *)
Definition unpadded (f : ascii -> bool) (s : text) : Prop :=
  match s with [] => True | c :: _ => f c = false end
  /\ match rev s with [] => True | c :: _ => f c = false end.

Lemma lstrip_by_stop f s : match s with [] => True | c :: _ => f c = false end -> lstrip_by f s = s.
Proof. destruct s as [|c s]; cbn; [reflexivity|]. now intros ->. Qed.

Lemma lstrip_by_pad f a s : Forall (fun c => f c = true) a -> lstrip_by f (a ++ s) = lstrip_by f s.
Proof. induction 1 as [|c a Hc H IH]; cbn; [reflexivity|]. now rewrite Hc. Qed.

Lemma lstrip_by_all f a : Forall (fun c => f c = true) a -> lstrip_by f a = [].
Proof. induction 1 as [|c a Hc H IH]; cbn; [reflexivity|]. now rewrite Hc. Qed.

Lemma strip_by_pad f a s b : Forall (fun c => f c = true) a -> Forall (fun c => f c = true) b ->
  unpadded f s -> strip_by f (a ++ s ++ b) = s.
Proof.
  intros Ha Hb [H1 H2]. unfold strip_by. rewrite lstrip_by_pad by exact Ha.
  destruct s as [|c s].
  - cbn [app]. rewrite (lstrip_by_all f b Hb). reflexivity.
  - rewrite (lstrip_by_stop f ((c :: s) ++ b)) by exact H1. rewrite rev_app_distr.
    rewrite lstrip_by_pad by now apply Forall_rev. rewrite lstrip_by_stop by exact H2. apply rev_involutive.
Qed.

Lemma strip_by_id f s : unpadded f s -> strip_by f s = s.
Proof. intros H. rewrite <- (app_nil_r s) at 1. apply (strip_by_pad f [] s []); auto. Qed.

Lemma space_bspace c : is_bspace c = true -> is_space c = true.
Proof.
  unfold is_bspace, is_space. rewrite !orb_true_iff, !andb_true_iff, !Nat.leb_le, !Nat.eqb_eq. lia.
Qed.

(** ** Digits *)
Lemma string_of_uint_digits d : Forall (fun c => is_digit c = true) (T (NilEmpty.string_of_uint d)).
Proof. unfold T. induction d; cbn; constructor; auto. Qed.

Lemma nat_text_digits n : Forall (fun c => is_digit c = true) (nat_text n).
Proof. apply string_of_uint_digits. Qed.

Lemma nat_text_nonempty n : nat_text n <> [].
Proof.
  unfold nat_text, T. assert (H : N.to_uint n <> Decimal.Nil).
  { destruct n as [|p]; [discriminate|]. apply DecimalPos.Unsigned.to_uint_nonnil. }
  destruct (N.to_uint n); cbn; congruence.
Qed.

Lemma nat_text_read n : nat_of_text (nat_text n) = Some n.
Proof.
  pose proof (nat_text_nonempty n) as H. unfold nat_of_text. destruct (nat_text n) eqn:E; [congruence|].
  rewrite <- E. unfold nat_text, T. rewrite string_of_list_ascii_of_string, NilEmpty.usu. cbn.
  now rewrite DecimalN.Unsigned.of_to.
Qed.

Lemma nat_text_inj n m : nat_text n = nat_text m -> n = m.
Proof. intros E. pose proof (nat_text_read n) as H. rewrite E, nat_text_read in H. congruence. Qed.

Lemma nat_of_text_digits s : s <> [] -> Forall (fun c => is_digit c = true) s -> exists n, nat_of_text s = Some n.
Proof.
  intros Hne H. assert (G : exists u, NilEmpty.uint_of_string (string_of_list_ascii s) = Some u).
  { clear Hne. induction H as [|c s Hc H [u IH]]; [now exists Decimal.Nil|]. cbn. rewrite IH.
    destruct c as [[] [] [] [] [] [] [] []]; try discriminate Hc; eexists; reflexivity. }
  destruct G as [u G]. exists (N.of_uint u). unfold nat_of_text. destruct s; [congruence|]. now rewrite G.
Qed.

Lemma int_text_nonneg z : (0 <= z)%Z -> int_text z = nat_text (Z.to_N z).
Proof. intros H. unfold int_text. now destruct (z <? 0)%Z eqn:E; [lia|]. Qed.

Lemma digit_hex c : is_digit c = true -> is_hex c = true.
Proof. unfold is_hex. now intros ->. Qed.

(** ** span and the regular expression *)
Lemma span_app f a b : Forall (fun c => f c = true) a ->
  match b with [] => True | c :: _ => f c = false end -> span f (a ++ b) = (a, b).
Proof.
  intros H Hb. induction H as [|c a Hc H IH]; cbn.
  - destruct b as [|c b]; [reflexivity|]. cbn. now rewrite Hb.
  - now rewrite Hc, IH.
Qed.

Lemma span_spec f s a b : span f s = (a, b) -> s = a ++ b /\ Forall (fun c => f c = true) a.
Proof.
  revert a b. induction s as [|c s IH]; intros a b; cbn.
  - intros E. injection E as <- <-. auto.
  - destruct (f c) eqn:Ec.
    + destruct (span f s) as [a' b']. intros E. injection E as <- <-. destruct (IH _ _ eq_refl) as [-> H]. auto.
    + intros E. injection E as <- <-. auto.
Qed.

(** The strings the regular expression ^(.+)-(\d+)-g([0-9a-f]+)$ matches, with
    their groups. *)
Definition describes (tag num hex : text) : Prop :=
  tag <> [] /\ ~ In newline tag
  /\ num <> [] /\ Forall (fun c => is_digit c = true) num
  /\ hex <> [] /\ Forall (fun c => is_hex c = true) hex.

Lemma match_describe_complete tag num hex tail : describes tag num hex -> tail = [] \/ tail = [newline] ->
  match_describe (tag ++ T "-" ++ num ++ T "-g" ++ hex ++ tail) = Some (tag, num, hex).
Proof.
  intros (H1 & H2 & H3 & H4 & H5 & H6) Ht. unfold match_describe.
  assert (E : rev (tag ++ T "-" ++ num ++ T "-g" ++ hex)
              = rev hex ++ "g"%char :: "-"%char :: rev num ++ "-"%char :: rev tag).
  { rewrite !rev_app_distr. cbn. now rewrite <- !app_assoc. }
  assert (R : (match rev (tag ++ T "-" ++ num ++ T "-g" ++ hex ++ tail) with
                c :: r => if Ascii.eqb c newline then r else c :: r | [] => [] end)
              = rev hex ++ "g"%char :: "-"%char :: rev num ++ "-"%char :: rev tag).
  { replace (tag ++ T "-" ++ num ++ T "-g" ++ hex ++ tail)
      with ((tag ++ T "-" ++ num ++ T "-g" ++ hex) ++ tail) by now rewrite <- !app_assoc.
    rewrite rev_app_distr. destruct Ht as [->| ->].
    - cbn [rev app]. rewrite E. destruct (rev hex) as [|c r] eqn:Er.
      { exfalso. apply H5. rewrite <- (rev_involutive hex), Er. reflexivity. }
      cbn [app]. assert (Hc : is_hex c = true).
      { apply Forall_rev in H6. rewrite Er in H6. now inversion H6. }
      destruct (Ascii.eqb c newline) eqn:En; [|reflexivity]. apply Ascii.eqb_eq in En. subst c. discriminate.
    - cbn [rev app]. rewrite Ascii.eqb_refl. exact E. }
  rewrite R. rewrite span_app; [|now apply Forall_rev|reflexivity].
  destruct (rev hex) as [|h hs] eqn:Eh.
  { exfalso. apply H5. rewrite <- (rev_involutive hex), Eh. reflexivity. }
  cbn [Ascii.eqb Bool.eqb andb].
  rewrite span_app; [|now apply Forall_rev|reflexivity].
  destruct (rev num) as [|n ns] eqn:En.
  { exfalso. apply H3. rewrite <- (rev_involutive num), En. reflexivity. }
  destruct (rev tag) as [|t ts] eqn:Et.
  { exfalso. apply H1. rewrite <- (rev_involutive tag), Et. reflexivity. }
  assert (Hnl : has_char newline (t :: ts) = false).
  { apply has_char_false. intros Hin. apply H2. rewrite <- (rev_involutive tag), Et. now apply -> in_rev. }
  rewrite Hnl. cbn [Ascii.eqb Bool.eqb andb negb]. rewrite <- Et, <- En, <- Eh, !rev_involutive. reflexivity.
Qed.

Lemma match_describe_sound s tag num hex : match_describe s = Some (tag, num, hex) ->
  describes tag num hex
  /\ exists tail, (tail = [] \/ tail = [newline]) /\ s = tag ++ T "-" ++ num ++ T "-g" ++ hex ++ tail.
Proof.
  unfold match_describe.
  assert (Hs : exists tail, (tail = [] \/ tail = [newline]) /\
     s = rev (match rev s with c :: r => if Ascii.eqb c newline then r else c :: r | [] => [] end) ++ tail).
  { destruct (rev s) as [|c r] eqn:Er.
    - exists []. split; [now left|]. rewrite <- (rev_involutive s), Er. reflexivity.
    - destruct (Ascii.eqb c newline) eqn:Ec.
      + apply Ascii.eqb_eq in Ec. subst c. exists [newline]. split; [now right|].
        rewrite <- (rev_involutive s), Er. reflexivity.
      + exists []. split; [now left|]. rewrite <- Er, rev_involutive. now rewrite app_nil_r. }
  set (r := match rev s with c :: r => if Ascii.eqb c newline then r else c :: r | [] => [] end) in *.
  clearbody r. destruct Hs as (tail & Ht & ->).
  destruct (span is_hex r) as [[|h hs] [|g [|d r1]]] eqn:E1; try discriminate.
  destruct (Ascii.eqb g "g" && Ascii.eqb d "-") eqn:Eg; [|discriminate].
  apply andb_prop in Eg. destruct Eg as [Eg Ed]. apply Ascii.eqb_eq in Eg. apply Ascii.eqb_eq in Ed. subst g d.
  destruct (span is_digit r1) as [[|n ns] [|x [|t ts]]] eqn:E2; try discriminate.
  destruct (Ascii.eqb x "-" && negb (has_char newline (t :: ts))) eqn:Ex; [|discriminate].
  apply andb_prop in Ex. destruct Ex as [Ex En]. apply Ascii.eqb_eq in Ex. subst x.
  apply negb_true_iff, has_char_false in En.
  intros E. injection E as <- <- <-.
  apply span_spec in E1. destruct E1 as [-> F1]. apply span_spec in E2. destruct E2 as [-> F2].
  change (rev ts ++ [t]) with (rev (t :: ts)). change (rev ns ++ [n]) with (rev (n :: ns)).
  change (rev hs ++ [h]) with (rev (h :: hs)).
  split.
  - split; [destruct (rev (t :: ts)) eqn:Er; [apply (f_equal (@rev _)) in Er; rewrite rev_involutive in Er; discriminate|congruence]|].
    split; [intros Hin; apply En; now apply in_rev|].
    split; [destruct (rev (n :: ns)) eqn:Er; [apply (f_equal (@rev _)) in Er; rewrite rev_involutive in Er; discriminate|congruence]|].
    split; [now apply Forall_rev|].
    split; [destruct (rev (h :: hs)) eqn:Er; [apply (f_equal (@rev _)) in Er; rewrite rev_involutive in Er; discriminate|congruence]|].
    now apply Forall_rev.
  - exists tail. split; [exact Ht|].
    replace (rev ((h :: hs) ++ "g"%char :: "-"%char :: (n :: ns) ++ "-"%char :: t :: ts))
      with (rev (t :: ts) ++ T "-" ++ rev (n :: ns) ++ T "-g" ++ rev (h :: hs)).
    { now rewrite <- !app_assoc. }
    symmetry. rewrite rev_app_distr.
    change ("g"%char :: "-"%char :: (n :: ns) ++ "-"%char :: t :: ts)
      with (["g"%char; "-"%char] ++ (n :: ns) ++ ["-"%char] ++ t :: ts).
    rewrite !rev_app_distr. cbn [rev app]. rewrite <- !app_assoc. reflexivity.
Qed.

(** ** Splitting at a character *)
Lemma split_char (c : ascii) (a a' b b' : text) : ~ In c a -> ~ In c a' ->
  a ++ c :: b = a' ++ c :: b' -> a = a' /\ b = b'.
Proof.
  revert a'. induction a as [|x a IH]; intros [|y a'] H H' E; cbn in *.
  - injection E as ->. auto.
  - injection E as -> _. tauto.
  - injection E as -> _. tauto.
  - injection E as -> E. destruct (IH a' ltac:(tauto) ltac:(tauto) E) as [-> ->]. auto.
Qed.

Fixpoint join (sep : text) (l : list text) : text :=
  match l with
  | [] => []
  | [w] => w
  | w :: r => w ++ sep ++ join sep r
  end.

Lemma split_on_last c w : ~ In c w -> split_on c w = [w].
Proof.
  induction w as [|x w IH]; cbn; intros H; [reflexivity|].
  destruct (Ascii.eqb x c) eqn:E; [apply Ascii.eqb_eq in E; tauto|]. now rewrite IH by tauto.
Qed.
Lemma split_on_app c w s : ~ In c w -> split_on c (w ++ c :: s) = w :: split_on c s.
Proof.
  induction w as [|x w IH]; cbn; intros H.
  - now rewrite Ascii.eqb_refl.
  - destruct (Ascii.eqb x c) eqn:E; [apply Ascii.eqb_eq in E; tauto|]. now rewrite IH by tauto.
Qed.

Lemma strip_idem_pad s : unpadded is_space s -> strip (" "%char :: s) = s.
Proof. intros H. rewrite <- (app_nil_r s) at 1. apply (strip_by_pad is_space [" "%char] s []); auto. Qed.

Lemma split_join rs : Forall (fun r => ~ In ","%char r /\ unpadded is_space r) rs -> rs <> [] ->
  map strip (split_on "," (join (T ", ") rs)) = rs.
Proof.
  intros H Hne. destruct rs as [|r rs]; [congruence|]. clear Hne. inversion H as [|? ? [H1 H2] H3]; subst.
  assert (G : forall r rs, ~ In ","%char r -> Forall (fun r => ~ In ","%char r /\ unpadded is_space r) rs ->
     map strip (split_on "," (join (T ", ") (r :: rs))) = strip r :: rs).
  { clear. intros r rs. revert r. induction rs as [|r2 rs IH]; intros r H1 H; cbn [join].
    - rewrite split_on_last by exact H1. reflexivity.
    - inversion H as [|? ? [H2 H3] H4]; subst.
      etransitivity;
        [exact (f_equal (map strip) (split_on_app "," r (" "%char :: join (T ", ") (r2 :: rs)) H1))|].
      cbn [map]. f_equal.
      assert (E : " "%char :: join (T ", ") (r2 :: rs) = join (T ", ") ((" "%char :: r2) :: rs)) by (destruct rs; reflexivity).
      rewrite E, IH; [|cbn; intuition discriminate|exact H4]. f_equal. now apply strip_idem_pad. }
  rewrite G by assumption. f_equal. now apply strip_by_id.
Qed.

(** ** Order of strings *)

(** [a] is a prefix of [b], or at the first difference it has the smaller
    character. *)
Definition text_le (a b : text) : Prop :=
  (exists r, b = a ++ r)
  \/ (exists p x y a' b', a = p ++ x :: a' /\ b = p ++ y :: b' /\ (N_of_ascii x < N_of_ascii y)%N).

Lemma text_leb_le a b : text_leb a b = true <-> text_le a b.
Proof.
  split.
  - revert b. induction a as [|x a IH]; intros b H; [left; now exists b|]. destruct b as [|y b]; [discriminate|].
    cbn in H. apply orb_prop in H. destruct H as [H|H].
    + right. exists [], x, y, a, b. apply N.ltb_lt in H. auto.
    + apply andb_prop in H. destruct H as [H1 H2]. apply N.eqb_eq in H1.
      assert (x = y) by (rewrite <- (ascii_N_embedding x), <- (ascii_N_embedding y); congruence). subst y.
      destruct (IH b H2) as [[r ->]|(p & u & v & a' & b' & -> & -> & Hlt)].
      * left. now exists r.
      * right. exists (x :: p), u, v, a', b'. auto.
  - intros [[r ->]|(p & x & y & a' & b' & -> & -> & Hlt)].
    + induction a as [|x a IH]; cbn; [reflexivity|]. now rewrite N.eqb_refl, IH, orb_true_r.
    + induction p as [|z p IH]; cbn.
      * apply N.ltb_lt in Hlt. now rewrite Hlt.
      * now rewrite N.eqb_refl, IH, orb_true_r.
Qed.

Lemma text_eqb_eq a b : text_eqb a b = true <-> a = b.
Proof.
  revert b. induction a as [|x a IH]; intros [|y b]; cbn; try (split; congruence); try (split; discriminate).
  rewrite andb_true_iff, Ascii.eqb_eq, IH. split; [intros [-> ->]; reflexivity|intros E; injection E; auto].
Qed.

Lemma text_leb_total a b : text_leb a b = true \/ text_leb b a = true.
Proof.
  revert b. induction a as [|x a IH]; intros [|y b]; cbn; auto.
  destruct (N.lt_trichotomy (N_of_ascii x) (N_of_ascii y)) as [H|[H|H]].
  - apply N.ltb_lt in H. rewrite H. now left.
  - rewrite H, N.eqb_refl. destruct (IH b) as [-> | ->]; rewrite orb_true_r; auto.
  - apply N.ltb_lt in H. rewrite H. now right.
Qed.

Lemma text_leb_refl a : text_leb a a = true.
Proof. destruct (text_leb_total a a); assumption. Qed.

Lemma text_leb_antisym a b : text_leb a b = true -> text_leb b a = true -> a = b.
Proof.
  revert b. induction a as [|x a IH]; intros [|y b]; cbn; try congruence.
  rewrite !orb_true_iff, !andb_true_iff, !N.ltb_lt, !N.eqb_eq. intros H1 H2.
  assert (E : N_of_ascii x = N_of_ascii y) by (destruct H1 as [?|[? ?]], H2 as [?|[? ?]]; lia).
  assert (x = y) by (rewrite <- (ascii_N_embedding x), <- (ascii_N_embedding y); congruence). subst y. f_equal.
  apply IH; [destruct H1 as [?|[? ?]]|destruct H2 as [?|[? ?]]]; auto; lia.
Qed.

Lemma text_leb_trans a b c : text_leb a b = true -> text_leb b c = true -> text_leb a c = true.
Proof.
  revert b c. induction a as [|x a IH]; intros [|y b] [|z c]; cbn; try congruence.
  rewrite !orb_true_iff, !andb_true_iff, !N.ltb_lt, !N.eqb_eq.
  intros [H1|[H1 H1']] [H2|[H2 H2']]; try (left; lia). right. split; [lia|]. eapply IH; eauto.
Qed.

Lemma insert_text_In x l y : In y (insert_text x l) <-> y = x \/ In y l.
Proof.
  induction l as [|z l IH]; cbn; [intuition congruence|].
  destruct (text_eqb x z) eqn:E.
  - apply text_eqb_eq in E. subst z. cbn. intuition congruence.
  - destruct (text_leb x z); cbn; [intuition congruence|]. rewrite IH. intuition congruence.
Qed.

Lemma sorted_set_In l y : In y (sorted_set l) <-> In y l.
Proof. induction l as [|x l IH]; cbn; [reflexivity|]. rewrite insert_text_In, IH. intuition congruence. Qed.

Lemma sorted_set_sorted l : StronglySorted (fun a b => text_leb a b = true) (sorted_set l).
Proof.
  induction l as [|x l IH]; cbn; [constructor|]. change (fold_right insert_text [] l) with (sorted_set l).
  revert IH. generalize (sorted_set l) as m. clear l.
  induction 1 as [|y m H IH Hy]; cbn; [repeat constructor|].
  destruct (text_eqb x y); [now constructor|]. destruct (text_leb x y) eqn:E.
  - constructor; [now constructor|]. constructor; [exact E|]. rewrite Forall_forall in *. intros z Hz.
    eapply text_leb_trans; [exact E|auto].
  - constructor; [exact IH|]. rewrite Forall_forall in *. intros z Hz. apply insert_text_In in Hz.
    destruct Hz as [->|Hz]; [|auto]. destruct (text_leb_total x y); congruence.
Qed.

Lemma first_with_prefix_none prefix l : first_with_prefix prefix l = None <->
  forall v, ~ In (prefix ++ v) l.
Proof.
  induction l as [|x l IH]; cbn; [split; auto|]. destruct (starts_with prefix x) eqn:E.
  - apply starts_with_iff in E. destruct E as [r ->]. split; [discriminate|].
    intros H. exfalso. apply (H r). now left.
  - rewrite IH. split; intros H v.
    + intros [Hv|Hv]; [|now apply (H v)]. subst x. rewrite starts_with_app in E. discriminate.
    + intros Hv. apply (H v). now right.
Qed.

Lemma first_with_prefix_some prefix l v : StronglySorted (fun a b => text_leb a b = true) l ->
  first_with_prefix prefix l = Some v ->
  In (prefix ++ v) l /\ forall w, In (prefix ++ w) l -> text_leb (prefix ++ v) (prefix ++ w) = true.
Proof.
  induction 1 as [|x l H IH Hx]; cbn; [discriminate|]. destruct (starts_with prefix x) eqn:E.
  - apply starts_with_iff in E. destruct E as [r ->]. rewrite skipn_app_len. intros Ev. injection Ev as <-.
    split; [now left|]. intros w [Hw|Hw]; [rewrite Hw; apply text_leb_refl|]. rewrite Forall_forall in Hx. auto.
  - intros Ev. destruct (IH Ev) as [H1 H2]. split; [now right|]. intros w [Hw|Hw]; [|auto].
    subst x. rewrite starts_with_app in E. discriminate.
Qed.

(** C63, C80: the characters that the version code removes and recognises,
    stated by their codes. *)
From Coq Require Import String Ascii Bool Arith ZArith Lia.
From Verif Require Import Version VersionFacts Versioneer Build PropVersion PropBuild.
From Coq Require Import List.
Import ListNotations.
Open Scope list_scope.

(** * Specification *)

(** White space of bytes: tab, newline, vertical tab, form feed, carriage
    return and space.  str has in addition the separators 28 to 31, the next
    line and the no-break space. *)
Definition white_bytes : list nat := [9; 10; 11; 12; 13; 32].
Definition white_text : list nat := white_bytes ++ [28; 29; 30; 31; 133; 160].
Definition one_of (codes : list nat) (c : ascii) : Prop := In (nat_of_ascii c) codes.

(** [out] is [raw] without the characters in [codes] at both ends. *)
Definition stripped (codes : list nat) (raw out : text) : Prop :=
  exists before after, raw = before ++ out ++ after
    /\ Forall (one_of codes) before /\ Forall (one_of codes) after
    /\ (forall c rest, out = c :: rest -> ~ one_of codes c)
    /\ (forall c rest, out = rest ++ [c] -> ~ one_of codes c).

(** * Lemmas *)
Fixpoint all_chars (n : nat) (f : ascii -> bool) : bool :=
  match n with O => true | S m => f (ascii_of_nat m) && all_chars m f end.
Lemma all_chars_spec f : all_chars 256 f = true -> forall c, f c = true.
Proof.
  intros H c. assert (G : forall n, all_chars n f = true -> forall m, m < n -> f (ascii_of_nat m) = true).
  { clear. induction n as [|n IH]; intros H m Hm; [lia|]. cbn [all_chars] in H. apply andb_true_iff in H as [H1 H2].
    destruct (Nat.eq_dec m n) as [->|]; [exact H1|]. apply IH; [exact H2|lia]. }
  rewrite <- (ascii_nat_embedding c). apply (G 256 H). apply nat_ascii_bounded.
Qed.
Definition code_in (codes : list nat) (c : ascii) : bool := existsb (Nat.eqb (nat_of_ascii c)) codes.
Lemma code_in_iff codes c : code_in codes c = true <-> one_of codes c.
Proof.
  unfold code_in, one_of. rewrite existsb_exists. split.
  - intros (x & Hx & E). apply Nat.eqb_eq in E. now subst.
  - intros H. eexists. split; [exact H|]. apply Nat.eqb_refl.
Qed.
Lemma class_codes (f : ascii -> bool) codes : all_chars 256 (fun c => Bool.eqb (f c) (code_in codes c)) = true ->
  forall c, f c = true <-> one_of codes c.
Proof.
  intros H c. rewrite <- code_in_iff. pose proof (all_chars_spec _ H c) as E. cbn beta in E. apply Bool.eqb_prop in E. now rewrite E.
Qed.

Lemma lstrip_split f s : exists a, s = a ++ lstrip_by f s /\ Forall (fun c => f c = true) a
  /\ match lstrip_by f s with [] => True | c :: _ => f c = false end.
Proof.
  induction s as [|c s (a & IH & Ha & Hs)]; [exists []; cbn; auto|]. cbn [lstrip_by]. destruct (f c) eqn:E.
  - exists (c :: a). cbn [app]. split; [now rewrite <- IH|]. split; [now constructor|exact Hs].
  - exists []. cbn. auto.
Qed.

Lemma strip_split f s : exists a b, s = a ++ strip_by f s ++ b
  /\ Forall (fun c => f c = true) a /\ Forall (fun c => f c = true) b /\ unpadded f (strip_by f s).
Proof.
  unfold strip_by. destruct (lstrip_split f s) as (a & E & Ha & Hs). set (t := lstrip_by f s) in *.
  destruct (lstrip_split f (rev t)) as (b & E2 & Hb & Ht). set (u := lstrip_by f (rev t)) in *.
  assert (Et : t = rev u ++ rev b).
  { apply (f_equal (@rev ascii)) in E2. rewrite rev_involutive, rev_app_distr in E2. exact E2. }
  exists a, (rev b). split; [now rewrite <- Et|]. split; [exact Ha|]. split; [now apply Forall_rev|].
  split; [|now rewrite rev_involutive]. rewrite Et in Hs. now destruct (rev u).
Qed.

Lemma unpadded_ends f codes s : (forall c, f c = true <-> one_of codes c) ->
  (unpadded f s <-> (forall c rest, s = c :: rest -> ~ one_of codes c) /\ (forall c rest, s = rest ++ [c] -> ~ one_of codes c)).
Proof.
  intros H. unfold unpadded. split.
  - intros [H1 H2]. split.
    + intros c rest ->. rewrite <- H. congruence.
    + intros c rest ->. rewrite rev_app_distr in H2. cbn in H2. rewrite <- H. congruence.
  - intros [H1 H2]. split.
    + destruct s as [|c s]; [exact I|]. specialize (H1 c s eq_refl). rewrite <- H in H1. now destruct (f c).
    + destruct (rev s) as [|c r] eqn:E; [exact I|]. specialize (H2 c (rev r)). rewrite <- H in H2.
      destruct (f c); [|reflexivity]. exfalso. apply H2; [|reflexivity]. now rewrite <- (rev_involutive s), E.
Qed.

Lemma strip_exact f codes raw out : (forall c, f c = true <-> one_of codes c) ->
  (stripped codes raw out <-> out = strip_by f raw).
Proof.
  intros H. assert (HF : forall l, Forall (fun c => f c = true) l <-> Forall (one_of codes) l).
  { intros l. split; intros G; eapply Forall_impl; try exact G; intros c; apply H. }
  split.
  - intros (a & b & -> & Ha & Hb & H1). symmetry. apply strip_by_pad; try (now apply HF). apply (unpadded_ends f codes); auto.
  - intros ->. destruct (strip_split f raw) as (a & b & E & Ha & Hb & Hu). exists a, b.
    split; [exact E|]. split; [now apply HF|]. split; [now apply HF|]. now apply (unpadded_ends f codes).
Qed.

Lemma bspace_codes : forall c, is_bspace c = true <-> one_of white_bytes c.
Proof. apply class_codes. vm_compute. reflexivity. Qed.
Lemma space_codes : forall c, is_space c = true <-> one_of white_text c.
Proof. apply class_codes. vm_compute. reflexivity. Qed.

(** * Theorems *)

(** The result of run_command is the output of the first command that exists,
    without the white space at both ends. *)
Theorem C80_stripped exec commands out :
  fst (fst (run_command exec commands)) = Some out
  <-> exists missing c rest raw, commands = missing ++ c :: rest /\ Forall (fun c => exec c = Missing) missing
        /\ exec c = Exited raw 0 /\ stripped white_bytes raw out.
Proof.
  rewrite C80_result. split; intros (m & c & rest & raw & H1 & H2 & H3 & H4); exists m, c, rest, raw; repeat split; auto.
  - subst out. now apply (strip_exact is_bspace _ _ _ bspace_codes).
  - now apply (strip_exact is_bspace _ _ _ bspace_codes) in H4.
Qed.
Print Assumptions C80_stripped.

(** The characters recognised in the output of git: white space, digits and
    the characters of commit ids; and what is left of an output. *)
Theorem C63_characters : forall c raw out,
  (is_space c = true <-> one_of white_text c)
  /\ (is_bspace c = true <-> one_of white_bytes c)
  /\ (is_digit c = true <-> In c (T "0123456789"))
  /\ (is_hex c = true <-> In c (T "0123456789abcdef"))
  /\ (out = strip raw <-> stripped white_text raw out)
  /\ (out = strip (bstrip raw) <-> stripped white_text raw out).
Proof.
  intros c raw out.
  assert (HT : forall l, (one_of (map nat_of_ascii l) c <-> In c l)).
  { intros l. unfold one_of. rewrite in_map_iff. split; [|eauto]. intros (x & E & Hx).
    apply (f_equal ascii_of_nat) in E. rewrite !ascii_nat_embedding in E. now subst. }
  split; [apply space_codes|]. split; [apply bspace_codes|].
  split; [rewrite <- HT; apply class_codes; vm_compute; reflexivity|].
  split; [rewrite <- HT; apply class_codes; vm_compute; reflexivity|].
  pose proof (strip_exact is_space white_text raw out space_codes) as S1. split; [symmetry; exact S1|].
  assert (E : strip (bstrip raw) = strip raw); [|rewrite E; symmetry; exact S1].
  destruct (strip_split is_bspace raw) as (a & b & E & Ha & Hb & _). fold (bstrip raw) in E.
  destruct (strip_split is_space (bstrip raw)) as (a2 & b2 & E2 & Ha2 & Hb2 & Hu). fold (strip (bstrip raw)) in *.
  set (u := strip (bstrip raw)) in *. rewrite E, E2.
  replace (a ++ (a2 ++ u ++ b2) ++ b) with ((a ++ a2) ++ u ++ (b2 ++ b)) by now rewrite <- !app_assoc.
  symmetry. apply strip_by_pad; [| |exact Hu]; apply Forall_app; split; auto;
    eapply Forall_impl; try apply space_bspace; assumption.
Qed.
Print Assumptions C63_characters.

(** Two lines of output. *)
Example C80_stripped_case : stripped white_bytes (T " a b " ++ [ascii_of_nat 10]) (T "a b").
Proof.
  exists (T " "), (T " " ++ [ascii_of_nat 10]). split; [reflexivity|].
  split; [repeat constructor; cbn; tauto|]. split; [repeat constructor; cbn; tauto|]. split.
  - intros c rest E. injection E as <- _. cbn. intuition lia.
  - intros c rest E. apply (f_equal (@rev ascii)) in E. rewrite rev_app_distr in E. cbn in E. injection E as <- _. cbn. intuition lia.
Qed.

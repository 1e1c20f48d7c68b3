(** C71: repr() of storages. *)
From Coq Require Import String Ascii.
From Coq Require Import ZArith NArith Bool Lia List ZifyBool.
From Verif Require Import Py SliceTools Basics Storage Spec SliceFacts IndexFacts
  CompressFacts ReduceFacts SolverFacts SolveFacts Repr ReprFacts ViewFacts BuildFacts SparseFacts
  ConvFacts FromFacts DMFacts ReadFacts MapFacts ChainFacts EqFacts PropRead PropText.
From Verif Require Version VersionFacts.
Import ListNotations.
Open Scope list_scope.
Open Scope Z_scope.

(** * Model *)

(** str of a list and of a tuple whose items print as [ws]. *)
Definition list_text (ws : list text) : text := T "[" ++ join (T ", ") ws ++ T "]".
Definition tuple_text (ws : list text) : text :=
  match ws with
  | [w] => T "(" ++ w ++ T ",)"
  | _ => T "(" ++ join (T ", ") ws ++ T ")"
  end.
Definition ints_text (l : list Z) : text := tuple_text (map Version.int_text l).
(** rdimensions and rstrides of DM: storage.py:1036, 1064-1066.  A group that the
    user gave as a list would print with brackets; groups are tuples here. *)
Definition groups_text (l : list (list Z)) : text := tuple_text (map ints_text l).

(** c * n for a one-character string *)
Definition times (c : ascii) (n : Z) : text := repeat c (Z.to_nat n).

(** self.data[self.offset:self.offset+self.size]: storage.py:528, 529.  Buffers
    with a negative offset or size are not modelled. *)
Definition buffer_window (l : list pyval) (b : buffer) : list pyval :=
  firstn (Z.to_nat (bsize b)) (skipn (Z.to_nat (boff b)) l).

(** Buffer.__repr__: storage.py:528-537. *)
Definition buffer_repr (show : pyval -> text) (h : heap) (b : buffer) : res text :=
  l <- cell h (baddr b) ;;
  if (boff b <? 0) || (bsize b <? 0) then Raise OutOfModel else
  let data := list_text (map show (buffer_window l b)) in
  let n := boff b in
  let p := times "*" (n / 10) ++ times "." (n mod 10) in
  let n := zlen l - (boff b + bsize b) in
  let s := times "." (n mod 10) ++ times "*" (n / 10) in
  let data := if (100 <? length data)%nat then firstn 40 data ++ T "....." ++ last40 data else data in
  Ok (T "Buffer(" ++ Version.int_text (bsize b) ++ T ", " ++ Version.int_text (boff b) ++ T ", "
      ++ p ++ data ++ s ++ T ", unspecified=" ++ show (bunspec b) ++ T ")").

(** Storage.__repr__: storage.py:305-306, with _get_object_data of Strided
    (621-622), COO (710-711), FlatCOO (789-790), CSR (860-861), C2SR (920-922) and
    DM (1069-1070). *)
Definition strided_repr (show : pyval -> text) (h : heap) (t : strided) : res text :=
  d <- buffer_repr show h (sdata t) ;;
  Ok (T "Strided" ++ tuple_text [ints_text (sshape t); ints_text (sstrides t); d]).
Fixpoint storage_repr (show : pyval -> text) (h : heap) (s : storage) : res text :=
  match s with
  | SBuffer b => buffer_repr show h b
  | SStrided t => strided_repr show h t
  | SCOO sh ind d =>
      i <- strided_repr show h ind ;;
      d <- buffer_repr show h d ;;
      Ok (T "COO" ++ tuple_text [ints_text sh; i; d])
  | SFlatCOO sh f d =>
      f <- buffer_repr show h f ;;
      d <- buffer_repr show h d ;;
      Ok (T "FlatCOO" ++ tuple_text [ints_text sh; f; d])
  | SCSR sh crow col d =>
      crow <- buffer_repr show h crow ;;
      col <- buffer_repr show h col ;;
      d <- buffer_repr show h d ;;
      Ok (T "CSR" ++ tuple_text [ints_text sh; crow; col; d])
  | SC2SR sh channels rl rp col d =>
      rl <- buffer_repr show h rl ;;
      rp <- buffer_repr show h rp ;;
      col <- buffer_repr show h col ;;
      d <- buffer_repr show h d ;;
      Ok (T "C2SR" ++ tuple_text [ints_text sh; Version.int_text channels; rl; rp; col; d])
  | SDM sh rdims _ rstrides roffset d =>
      d <- storage_repr show h d ;;
      Ok (T "DM" ++ tuple_text [ints_text sh; groups_text rdims; groups_text rstrides; ints_text roffset; d])
  end.

(** * Specification *)

(** The text of None and of integers. *)
Definition shows_plain (show : pyval -> text) : Prop :=
  show VNone = T "None" /\ forall z, show (VInt z) = Version.int_text z.
Definition plain (v : pyval) : Prop := match v with VNone | VInt _ => True | _ => False end.

(** The buffers among the constructor arguments. *)
Fixpoint buffers (s : storage) : list buffer :=
  match s with
  | SBuffer b => [b]
  | SStrided t => [sdata t]
  | SCOO _ ind d => [sdata ind; d]
  | SFlatCOO _ f d => [f; d]
  | SCSR _ crow col d => [crow; col; d]
  | SC2SR _ _ a b c d => [a; b; c; d]
  | SDM _ _ _ _ _ d => buffers d
  end.

(** The list of values of every buffer prints in at most 100 characters, so that
    repr does not abbreviate it, and holds integers and None only. *)
Definition printable (show : pyval -> text) (h : heap) (s : storage) : Prop :=
  Forall (fun b => exists vs, holds h b vs /\ Forall plain vs /\ plain (bunspec b)
                    /\ (length (list_text (map show vs)) <= 100)%nat) (buffers s).

(** Same size, offset, unspecified value, values in the window and number of
    cells. *)
Definition same_buffer (h1 : heap) (b1 : buffer) (h2 : heap) (b2 : buffer) : Prop :=
  bsize b1 = bsize b2 /\ boff b1 = boff b2 /\ bunspec b1 = bunspec b2
  /\ exists vs l1 l2, holds h1 b1 vs /\ holds h2 b2 vs
       /\ nth_error h1 (baddr b1) = Some l1 /\ nth_error h2 (baddr b2) = Some l2 /\ length l1 = length l2.
Definition same_strided (h1 : heap) (t1 : strided) (h2 : heap) (t2 : strided) : Prop :=
  sshape t1 = sshape t2 /\ sstrides t1 = sstrides t2 /\ same_buffer h1 (sdata t1) h2 (sdata t2).

(** The same class called with the same arguments. *)
Fixpoint same_arguments (h1 : heap) (s1 : storage) (h2 : heap) (s2 : storage) : Prop :=
  match s1, s2 with
  | SBuffer b1, SBuffer b2 => same_buffer h1 b1 h2 b2
  | SStrided t1, SStrided t2 => same_strided h1 t1 h2 t2
  | SCOO sh1 i1 d1, SCOO sh2 i2 d2 => sh1 = sh2 /\ same_strided h1 i1 h2 i2 /\ same_buffer h1 d1 h2 d2
  | SFlatCOO sh1 f1 d1, SFlatCOO sh2 f2 d2 => sh1 = sh2 /\ same_buffer h1 f1 h2 f2 /\ same_buffer h1 d1 h2 d2
  | SCSR sh1 a1 b1 d1, SCSR sh2 a2 b2 d2 =>
      sh1 = sh2 /\ same_buffer h1 a1 h2 a2 /\ same_buffer h1 b1 h2 b2 /\ same_buffer h1 d1 h2 d2
  | SC2SR sh1 n1 a1 b1 c1 d1, SC2SR sh2 n2 a2 b2 c2 d2 =>
      sh1 = sh2 /\ n1 = n2 /\ same_buffer h1 a1 h2 a2 /\ same_buffer h1 b1 h2 b2 /\ same_buffer h1 c1 h2 c2
      /\ same_buffer h1 d1 h2 d2
  | SDM sh1 rd1 _ rs1 ro1 d1, SDM sh2 rd2 _ rs2 ro2 d2 =>
      sh1 = sh2 /\ rd1 = rd2 /\ rs1 = rs2 /\ ro1 = ro2 /\ same_arguments h1 d1 h2 d2
  | _, _ => False
  end.

(** * Lemmas: texts that can be read back *)
Definition stop (r : text) : Prop := match r with [] => True | c :: _ => Version.is_digit c = false end.

(** What follows a printed value can be separated from it. *)
Definition code {A} (P : A -> Prop) (sh : A -> text) : Prop :=
  forall a b r1 r2, P a -> P b -> stop r1 -> stop r2 -> sh a ++ r1 = sh b ++ r2 -> a = b /\ r1 = r2.
(** It is not empty and does not start with a closing bracket. *)
Definition opens (w : text) : Prop := match w with [] => False | c :: _ => c <> "]"%char /\ c <> ")"%char end.

Lemma nat_text_code n m r1 r2 : stop r1 -> stop r2 ->
  Version.nat_text n ++ r1 = Version.nat_text m ++ r2 -> n = m /\ r1 = r2.
Proof.
  intros H1 H2 E. pose proof (VersionFacts.span_app Version.is_digit _ r1 (VersionFacts.nat_text_digits n) H1) as S1.
  rewrite E, (VersionFacts.span_app Version.is_digit _ r2 (VersionFacts.nat_text_digits m) H2) in S1.
  injection S1 as S1 ->. apply VersionFacts.nat_text_inj in S1. auto.
Qed.

Lemma nat_text_first n : exists c r, Version.nat_text n = c :: r /\ Version.is_digit c = true.
Proof.
  pose proof (VersionFacts.nat_text_digits n) as F. pose proof (VersionFacts.nat_text_nonempty n) as Hn.
  destruct (Version.nat_text n) as [|c r]; [congruence|]. inversion F; subst. eauto.
Qed.

Lemma int_code : code (fun _ => True) Version.int_text.
Proof.
  intros a b r1 r2 _ _ H1 H2 E. unfold Version.int_text in E.
  destruct (nat_text_first (Z.to_N a)) as (ca & ra & Ea & Da). destruct (nat_text_first (Z.to_N b)) as (cb & rb & Eb & Db).
  destruct (a <? 0) eqn:La, (b <? 0) eqn:Lb.
  - injection E as E. apply nat_text_code in E; auto. destruct E as [E ->]. split; [lia|reflexivity].
  - exfalso. rewrite Eb in E. injection E as E _. subst cb. discriminate.
  - exfalso. rewrite Ea in E. injection E as E _. subst ca. discriminate.
  - apply nat_text_code in E; auto. destruct E as [E ->]. split; [lia|reflexivity].
Qed.

Lemma digit_opens c r : Version.is_digit c = true -> opens (c :: r).
Proof. intros H. split; intros ->; discriminate. Qed.

Lemma int_opens z : opens (Version.int_text z).
Proof.
  unfold Version.int_text. destruct (z <? 0); [split; discriminate|].
  destruct (nat_text_first (Z.to_N z)) as (c & r & -> & D). now apply digit_opens.
Qed.

Lemma plain_code show : shows_plain show -> code plain show.
Proof.
  intros [Hn Hz] a b r1 r2 Ha Hb H1 H2 E. destruct a, b; try contradiction; rewrite ?Hn, ?Hz in E.
  - split; [reflexivity|]. now apply app_inv_head in E.
  - exfalso. unfold Version.int_text in E. destruct (z <? 0); [discriminate|].
    destruct (nat_text_first (Z.to_N z)) as (c & r & Ec & D). rewrite Ec in E. injection E as E _. subst c. discriminate.
  - exfalso. unfold Version.int_text in E. destruct (z <? 0); [discriminate|].
    destruct (nat_text_first (Z.to_N z)) as (c & r & Ec & D). rewrite Ec in E. injection E as E _. subst c. discriminate.
  - apply int_code in E; auto. destruct E as [-> ->]. auto.
Qed.

Lemma plain_opens show v : shows_plain show -> plain v -> opens (show v).
Proof. intros [Hn Hz] Hv. destruct v; try contradiction; [rewrite Hn; split; discriminate|rewrite Hz; apply int_opens]. Qed.

Lemma join_cons sep (w : text) x l : join sep (w :: x :: l) = w ++ sep ++ join sep (x :: l).
Proof. reflexivity. Qed.

Lemma app3 (a b c : text) : (a ++ b) ++ c = a ++ b ++ c.
Proof. symmetry. apply app_assoc. Qed.

Lemma join_code {A} (P : A -> Prop) (sh : A -> text) (e : ascii) : code P sh -> (forall a, P a -> opens (sh a)) ->
  e = "]"%char \/ e = ")"%char ->
  forall l1 l2 r1 r2, Forall P l1 -> Forall P l2 ->
  join (T ", ") (map sh l1) ++ e :: r1 = join (T ", ") (map sh l2) ++ e :: r2 -> l1 = l2 /\ r1 = r2.
Proof.
  intros Hc Ho He.
  assert (Se : forall r, stop (e :: r)) by (intros r; destruct He as [-> | ->]; reflexivity).
  assert (O : forall a l r r', P a -> join (T ", ") (map sh (a :: l)) ++ r <> e :: r').
  { intros a l r r' Ha E. specialize (Ho a Ha). destruct (sh a) as [|c w] eqn:Ea; [contradiction|].
    destruct Ho as [Ho1 Ho2]. assert (Hce : c = e).
    { destruct l as [|b l]; cbn [map] in E; [cbn [join] in E|rewrite join_cons in E]; rewrite Ea in E; now injection E. }
    subst c. destruct He as [-> | ->]; congruence. }
  induction l1 as [|a l1 IH]; intros l2 r1 r2 F1 F2 E.
  - destruct l2 as [|b l2]; [injection E as ->; auto|]. exfalso. inversion F2; subst. symmetry in E. now apply O in E.
  - inversion F1 as [|? ? Pa F1']; subst. destruct l2 as [|b l2]; [exfalso; now apply O in E|].
    inversion F2 as [|? ? Pb F2']; subst. cbn [map] in E.
    assert (Sc : forall w, stop (T ", " ++ w)) by reflexivity.
    destruct l1 as [|a2 l1], l2 as [|b2 l2]; cbn [map] in E; rewrite ?join_cons in E; cbn [join] in E; rewrite ?app3 in E.
    + apply Hc in E; auto. destruct E as [-> E]. injection E as ->. auto.
    + exfalso. apply Hc in E; auto. destruct E as [_ E]. cbn in E. injection E as E _. destruct He as [-> | ->]; discriminate.
    + exfalso. apply Hc in E; auto. destruct E as [_ E]. cbn in E. injection E as E _. destruct He as [-> | ->]; discriminate.
    + apply Hc in E; auto. destruct E as [-> E]. apply app_inv_head in E. apply (IH (b2 :: l2)) in E; auto.
      destruct E as [E1 E2]. split; [now f_equal|exact E2].
Qed.

Lemma list_code {A} (P : A -> Prop) (sh : A -> text) l1 l2 r1 r2 : code P sh -> (forall a, P a -> opens (sh a)) ->
  Forall P l1 -> Forall P l2 -> list_text (map sh l1) ++ r1 = list_text (map sh l2) ++ r2 -> l1 = l2 /\ r1 = r2.
Proof.
  intros Hc Ho F1 F2 E. unfold list_text in E. rewrite !app3 in E. injection E as E.
  eapply join_code with (e := "]"%char); eauto.
Qed.

Lemma tuple_code {A} (P : A -> Prop) (sh : A -> text) : code P sh -> (forall a, P a -> opens (sh a)) ->
  forall l1 l2 r1 r2, Forall P l1 -> Forall P l2 ->
  tuple_text (map sh l1) ++ r1 = tuple_text (map sh l2) ++ r2 -> l1 = l2 /\ r1 = r2.
Proof.
  intros Hc Ho.
  assert (G : forall l r, (forall a, l <> [a]) -> tuple_text (map sh l) ++ r = "("%char :: join (T ", ") (map sh l) ++ ")"%char :: r).
  { intros [|a [|b l]] r H; [reflexivity|now destruct (H a)|]. cbn [map]. unfold tuple_text. rewrite !app3. reflexivity. }
  assert (G1 : forall a r, tuple_text (map sh [a]) ++ r = "("%char :: sh a ++ ","%char :: ")"%char :: r).
  { intros a r. cbn [map tuple_text]. rewrite !app3. reflexivity. }
  assert (N : forall a l r1 r2, Forall P [a] -> Forall P l -> (forall x, l <> [x]) ->
    tuple_text (map sh [a]) ++ r1 <> tuple_text (map sh l) ++ r2).
  { intros a l r1 r2 Fa Fl Hl E. rewrite G1, (G l) in E by exact Hl. injection E as E. inversion Fa as [|? ? Pa _]; subst.
    destruct l as [|b [|b2 l]]; [|now destruct (Hl b)|].
    - specialize (Ho a Pa). destruct (sh a) as [|c w]; [contradiction|]. injection E as E _. destruct Ho; congruence.
    - inversion Fl as [|? ? Pb Fl']; subst. cbn [map] in E. rewrite join_cons, !app3 in E. apply Hc in E; try easy. }
  assert (D : forall l : list A, (exists a, l = [a]) \/ forall a, l <> [a]).
  { intros [|a [|b l]]; [right; discriminate|left; eauto|right; discriminate]. }
  intros l1 l2 r1 r2 F1 F2 E.
  destruct (D l1) as [[a ->]|D1], (D l2) as [[b ->]|D2].
  - rewrite !G1 in E. injection E as E. inversion F1; inversion F2; subst. apply Hc in E; try easy.
    destruct E as [-> E]. injection E as ->. auto.
  - exfalso. now apply N in E.
  - exfalso. symmetry in E. now apply N in E.
  - rewrite !G in E by assumption. injection E as E. eapply join_code with (e := ")"%char); eauto.
Qed.

Lemma all_true {A} (l : list A) : Forall (fun _ => True) l.
Proof. now induction l; constructor. Qed.

Lemma ints_code l1 l2 r1 r2 : ints_text l1 ++ r1 = ints_text l2 ++ r2 -> l1 = l2 /\ r1 = r2.
Proof. apply (tuple_code (fun _ => True)); auto using int_code, int_opens, all_true. Qed.

Lemma ints_opens l : opens (ints_text l).
Proof. destruct l as [|a [|b l]]; split; discriminate. Qed.

Lemma groups_code l1 l2 r1 r2 : groups_text l1 ++ r1 = groups_text l2 ++ r2 -> l1 = l2 /\ r1 = r2.
Proof.
  apply (tuple_code (fun _ => True)); auto using ints_opens, all_true.
  intros a b x1 x2 _ _ _ _. apply ints_code.
Qed.

Lemma times_no c d n : c <> d -> ~ In c (times d n).
Proof. intros H Hin. apply repeat_spec in Hin. congruence. Qed.

(** The marks of the cells after the window. *)
Lemma marks_inj n m : 0 <= n -> 0 <= m ->
  times "." (n mod 10) ++ times "*" (n / 10) = times "." (m mod 10) ++ times "*" (m / 10) -> n = m.
Proof.
  intros Hn Hm E.
  assert (C : forall x, 0 <= x -> count_occ ascii_dec (times "." (x mod 10) ++ times "*" (x / 10)) "."%char = Z.to_nat (x mod 10)
    /\ length (times "." (x mod 10) ++ times "*" (x / 10)) = (Z.to_nat (x mod 10) + Z.to_nat (x / 10))%nat).
  { intros x _. rewrite count_occ_app, app_length. unfold times. rewrite !repeat_length.
    rewrite (count_occ_repeat_eq _ _ eq_refl), (count_occ_repeat_neq _ _ (x := "."%char) (y := "*"%char)) by discriminate. lia. }
  destruct (C n Hn) as [Cn Ln], (C m Hm) as [Cm Lm]. rewrite E in Cn, Ln. 
  pose proof (Z.div_mod n 10 ltac:(lia)). pose proof (Z.div_mod m 10 ltac:(lia)).
  pose proof (Z.mod_pos_bound n 10 ltac:(lia)). pose proof (Z.mod_pos_bound m 10 ltac:(lia)).
  pose proof (Z.div_pos n 10 Hn ltac:(lia)). pose proof (Z.div_pos m 10 Hm ltac:(lia)). lia.
Qed.

Lemma buffer_repr_ok show h b vs l : holds h b vs -> nth_error h (baddr b) = Some l ->
  (length (list_text (map show vs)) <= 100)%nat ->
  boff b + bsize b <= zlen l /\
  buffer_repr show h b = Ok (T "Buffer(" ++ Version.int_text (bsize b) ++ T ", " ++ Version.int_text (boff b) ++ T ", "
    ++ (times "*" (boff b / 10) ++ times "." (boff b mod 10)) ++ list_text (map show vs)
    ++ (times "." ((zlen l - (boff b + bsize b)) mod 10) ++ times "*" ((zlen l - (boff b + bsize b)) / 10))
    ++ T ", unspecified=" ++ show (bunspec b) ++ T ")").
Proof.
  intros (l' & Hl & H0 & Hs & He & Hw) Hl' Hlen. rewrite Hl' in Hl. injection Hl as <-.
  split; [exact He|]. unfold buffer_repr. rewrite (cell_ok _ _ _ Hl'). cbn [bind].
  replace ((boff b <? 0) || (bsize b <? 0)) with false by (unfold zlen in *; lia).
  unfold buffer_window. replace (Z.to_nat (bsize b)) with (length vs) by (unfold zlen in *; lia). rewrite Hw.
  replace (100 <? _)%nat with false by (symmetry; now apply Nat.ltb_ge). reflexivity.
Qed.

Lemma Ok_eq {A} (a b : A) : Ok a = Ok b -> a = b.
Proof. congruence. Qed.

(** A buffer whose text fits. *)
Definition fits (show : pyval -> text) (h : heap) (b : buffer) : Prop :=
  exists vs, holds h b vs /\ Forall plain vs /\ plain (bunspec b)
    /\ (length (list_text (map show vs)) <= 100)%nat.

Lemma buffer_code show h1 b1 h2 b2 x1 x2 r1 r2 : shows_plain show -> fits show h1 b1 -> fits show h2 b2 ->
  buffer_repr show h1 b1 = Ok x1 -> buffer_repr show h2 b2 = Ok x2 -> x1 ++ r1 = x2 ++ r2 ->
  same_buffer h1 b1 h2 b2 /\ r1 = r2.
Proof.
  intros Hsh (vs1 & V1 & P1 & U1 & L1) (vs2 & V2 & P2 & U2 & L2) E1 E2 E.
  pose proof V1 as (l1 & Hl1 & O1 & _). pose proof V2 as (l2 & Hl2 & O2 & _).
  destruct (buffer_repr_ok show h1 b1 vs1 l1 V1 Hl1 L1) as [B1 R1]. rewrite R1 in E1. apply Ok_eq in E1. subst x1.
  destruct (buffer_repr_ok show h2 b2 vs2 l2 V2 Hl2 L2) as [B2 R2]. rewrite R2 in E2. apply Ok_eq in E2. subst x2.
  rewrite !app3 in E. apply app_inv_head in E.
  apply int_code in E; try easy. destruct E as [Es E]. apply app_inv_head in E.
  apply int_code in E; try easy. destruct E as [Eo E]. apply app_inv_head in E. rewrite Eo in E.
  do 2 apply app_inv_head in E.
  apply (list_code plain) in E; auto using plain_code, plain_opens.
  destruct E as [<- E].
  rewrite <- (app3 (times "." _) (times "*" _)) in E. rewrite <- (app3 (times "." ((zlen l2 - _) mod 10)) (times "*" _)) in E.
  change (T ", unspecified=") with (","%char :: T " unspecified=") in E. cbn [app] in E.
  apply VersionFacts.split_char in E.
  2,3: intros Hin; apply in_app_iff in Hin; destruct Hin as [Hin|Hin]; revert Hin; apply times_no; discriminate.
  destruct E as [Em E]. apply marks_inj in Em; [|lia|lia]. apply app_inv_head in E.
  apply (plain_code show Hsh) in E; auto; try easy. destruct E as [Eu E]. apply app_inv_head in E. subst r2.
  split; [|reflexivity]. split; [exact Es|]. split; [exact Eo|]. split; [exact Eu|].
  exists vs1, l1, l2. repeat (split; [assumption|]). unfold zlen in *. lia.
Qed.

Definition class_name (s : storage) : text :=
  match s with
  | SBuffer _ => T "Buffer" | SStrided _ => T "Strided" | SCOO _ _ _ => T "COO" | SFlatCOO _ _ _ => T "FlatCOO"
  | SCSR _ _ _ _ => T "CSR" | SC2SR _ _ _ _ _ _ => T "C2SR" | SDM _ _ _ _ _ _ => T "DM"
  end.

Lemma bind_inv {A B} (m : res A) (k : A -> res B) b : bind m k = Ok b -> exists a, m = Ok a /\ k a = Ok b.
Proof. destruct m; [eauto|discriminate]. Qed.

Ltac binds H :=
  repeat match type of H with
  | bind _ _ = Ok _ => let a := fresh "a" in let E := fresh "Eb" in
      apply bind_inv in H; destruct H as (a & E & H)
  end; apply Ok_eq in H.

Lemma repr_prefix show h s x : storage_repr show h s = Ok x -> exists y, x = class_name s ++ "("%char :: y.
Proof.
  destruct s; cbn [storage_repr class_name]; unfold strided_repr; intros H.
  - unfold buffer_repr in H. apply bind_inv in H. destruct H as (l & _ & H).
    destruct ((boff b <? 0) || (bsize b <? 0)); [discriminate|]. apply Ok_eq in H. subst x.
    eexists. cbn. reflexivity.
  - binds H. subst x. eexists. cbn. reflexivity.
  - binds H. subst x. eexists. cbn. reflexivity.
  - binds H. subst x. eexists. cbn. reflexivity.
  - binds H. subst x. eexists. cbn. reflexivity.
  - binds H. subst x. eexists. cbn. reflexivity.
  - binds H. subst x. eexists. cbn. reflexivity.
Qed.

Lemma tuple3 (n a b c : text) r : (n ++ tuple_text [a; b; c]) ++ r = n ++ T "(" ++ a ++ T ", " ++ b ++ T ", " ++ c ++ T ")" ++ r.
Proof. unfold tuple_text. cbn [join]. now rewrite !app3. Qed.
Lemma tuple4 (n a b c d : text) r : (n ++ tuple_text [a; b; c; d]) ++ r
  = n ++ T "(" ++ a ++ T ", " ++ b ++ T ", " ++ c ++ T ", " ++ d ++ T ")" ++ r.
Proof. unfold tuple_text. cbn [join]. now rewrite !app3. Qed.
Lemma tuple5 (n a b c d e : text) r : (n ++ tuple_text [a; b; c; d; e]) ++ r
  = n ++ T "(" ++ a ++ T ", " ++ b ++ T ", " ++ c ++ T ", " ++ d ++ T ", " ++ e ++ T ")" ++ r.
Proof. unfold tuple_text. cbn [join]. now rewrite !app3. Qed.
Lemma tuple6 (n a b c d e f : text) r : (n ++ tuple_text [a; b; c; d; e; f]) ++ r
  = n ++ T "(" ++ a ++ T ", " ++ b ++ T ", " ++ c ++ T ", " ++ d ++ T ", " ++ e ++ T ", " ++ f ++ T ")" ++ r.
Proof. unfold tuple_text. cbn [join]. now rewrite !app3. Qed.

Lemma strided_code show h1 t1 h2 t2 x1 x2 r1 r2 : shows_plain show ->
  fits show h1 (sdata t1) -> fits show h2 (sdata t2) ->
  strided_repr show h1 t1 = Ok x1 -> strided_repr show h2 t2 = Ok x2 -> x1 ++ r1 = x2 ++ r2 ->
  same_strided h1 t1 h2 t2 /\ r1 = r2.
Proof.
  intros Hsh F1 F2 E1 E2 E. unfold strided_repr in E1, E2. binds E1. binds E2. subst x1 x2.
  rewrite !tuple3 in E. do 2 apply app_inv_head in E. apply ints_code in E. destruct E as [Es E].
  apply app_inv_head in E. apply ints_code in E. destruct E as [Et E]. apply app_inv_head in E.
  eapply (buffer_code show h1 (sdata t1) h2 (sdata t2)) in E; eauto. destruct E as [Ed E]. apply app_inv_head in E.
  split; [|exact E]. split; [exact Es|]. split; [exact Et|exact Ed].
Qed.

Lemma repr_name show h1 s1 h2 s2 x1 x2 r1 r2 : storage_repr show h1 s1 = Ok x1 -> storage_repr show h2 s2 = Ok x2 ->
  x1 ++ r1 = x2 ++ r2 -> class_name s1 = class_name s2.
Proof.
  intros E1 E2 E. apply repr_prefix in E1, E2. destruct E1 as [y1 ->], E2 as [y2 ->]. rewrite !app3 in E. cbn [app] in E.
  apply VersionFacts.split_char in E; [tauto|destruct s1|destruct s2]; cbn; intuition discriminate.
Qed.

Lemma storage_code show : shows_plain show -> forall s1 h1 s2 h2 x1 x2 r1 r2,
  printable show h1 s1 -> printable show h2 s2 ->
  storage_repr show h1 s1 = Ok x1 -> storage_repr show h2 s2 = Ok x2 -> x1 ++ r1 = x2 ++ r2 ->
  same_arguments h1 s1 h2 s2 /\ r1 = r2.
Proof.
  intros Hsh. induction s1 as [b|t|sh ind d|sh f d|sh crow col d|sh ch a b c d|sh rd rsh rs ro d IH];
    intros h1 s2 h2 x1 x2 r1 r2 P1 P2 E1 E2 E; pose proof (repr_name _ _ _ _ _ _ _ _ _ E1 E2 E) as Hn;
    destruct s2 as [b'|t'|sh' ind' d'|sh' f' d'|sh' crow' col' d'|sh' ch' a' b' c' d'|sh' rd' rsh' rs' ro' d'];
    try discriminate Hn; clear Hn; unfold printable in P1, P2; cbn [buffers] in P1, P2; cbn [storage_repr] in E1, E2;
    cbn [same_arguments];
    repeat match goal with H : Forall _ (_ :: _) |- _ => let H1 := fresh "F" in apply Forall_cons_iff in H; destruct H as [H1 H] end.
  - eapply buffer_code; eauto.
  - eapply strided_code; eauto.
  - binds E1. binds E2. subst x1 x2. rewrite !tuple3 in E. do 2 apply app_inv_head in E.
    apply ints_code in E. destruct E as [Q1 E]. apply app_inv_head in E.
    eapply (strided_code show h1 ind h2 ind') in E; eauto. destruct E as [Q2 E]. apply app_inv_head in E.
    eapply (buffer_code show h1 d h2 d') in E; eauto. destruct E as [Q3 E]. apply app_inv_head in E. auto.
  - binds E1. binds E2. subst x1 x2. rewrite !tuple3 in E. do 2 apply app_inv_head in E.
    apply ints_code in E. destruct E as [Q1 E]. apply app_inv_head in E.
    eapply (buffer_code show h1 f h2 f') in E; eauto. destruct E as [Q2 E]. apply app_inv_head in E.
    eapply (buffer_code show h1 d h2 d') in E; eauto. destruct E as [Q3 E]. apply app_inv_head in E. auto.
  - binds E1. binds E2. subst x1 x2. rewrite !tuple4 in E. do 2 apply app_inv_head in E.
    apply ints_code in E. destruct E as [Q1 E]. apply app_inv_head in E.
    eapply (buffer_code show h1 crow h2 crow') in E; eauto. destruct E as [Q2 E]. apply app_inv_head in E.
    eapply (buffer_code show h1 col h2 col') in E; eauto. destruct E as [Q3 E]. apply app_inv_head in E.
    eapply (buffer_code show h1 d h2 d') in E; eauto. destruct E as [Q4 E]. apply app_inv_head in E. auto.
  - binds E1. binds E2. subst x1 x2. rewrite !tuple6 in E. do 2 apply app_inv_head in E.
    apply ints_code in E. destruct E as [Q1 E]. apply app_inv_head in E.
    apply int_code in E; try easy. destruct E as [Q0 E]. apply app_inv_head in E.
    eapply (buffer_code show h1 a h2 a') in E; eauto. destruct E as [Q2 E]. apply app_inv_head in E.
    eapply (buffer_code show h1 b h2 b') in E; eauto. destruct E as [Q3 E]. apply app_inv_head in E.
    eapply (buffer_code show h1 c h2 c') in E; eauto. destruct E as [Q4 E]. apply app_inv_head in E.
    eapply (buffer_code show h1 d h2 d') in E; eauto. destruct E as [Q5 E]. apply app_inv_head in E. auto 10.
  - binds E1. binds E2. subst x1 x2. rewrite !tuple5 in E. do 2 apply app_inv_head in E.
    apply ints_code in E. destruct E as [Q1 E]. apply app_inv_head in E.
    apply groups_code in E. destruct E as [Q2 E]. apply app_inv_head in E.
    apply groups_code in E. destruct E as [Q3 E]. apply app_inv_head in E.
    apply ints_code in E. destruct E as [Q4 E]. apply app_inv_head in E.
    eapply IH in E; eauto. destruct E as [Q5 E]. apply app_inv_head in E. auto 10.
Qed.

(** Transport of the array along the arguments. *)
Lemma same_buffer_holds h1 b1 h2 b2 vs : same_buffer h1 b1 h2 b2 -> holds h1 b1 vs -> holds h2 b2 vs.
Proof.
  intros (_ & _ & _ & vs' & l1 & _ & V1 & V2 & H1 & _) V.
  assert (vs = vs'); [|subst; exact V2].
  destruct V1 as (m & M1 & _ & S1 & _ & W1), V as (m' & M2 & _ & S2 & _ & W2).
  rewrite M2 in M1. injection M1 as <-. rewrite <- W1, <- W2.
  assert (length vs = length vs') by (unfold zlen in *; lia). congruence.
Qed.

Lemma window_nth {A} (d : A) o n l p : (o <= p < o + n)%nat -> (n <= length (skipn o l))%nat ->
  nth p l d = nth (p - o) (firstn n (skipn o l)) d.
Proof.
  intros Hp Hn. rewrite nth_firstn by lia. rewrite nth_skipn. f_equal. lia.
Qed.

Lemma same_arguments_shape : forall s1 s2 h1 h2, same_arguments h1 s1 h2 s2 ->
  class_name s1 = class_name s2 /\ shape_of s1 = shape_of s2 /\ unspecified_of s1 = unspecified_of s2.
Proof.
  assert (B : forall h1 b1 h2 b2, same_buffer h1 b1 h2 b2 -> bsize b1 = bsize b2 /\ bunspec b1 = bunspec b2).
  { intros h1 b1 h2 b2 (H1 & _ & H2 & _). auto. }
  induction s1 as [b|t|sh ind d|sh f d|sh crow col d|sh ch a b c d|sh rd rsh rs ro d IH];
    intros s2 h1 h2 S; destruct s2; try contradiction; cbn [same_arguments class_name shape_of unspecified_of] in *.
  - destruct (B _ _ _ _ S) as [-> ->]. auto.
  - destruct S as (-> & _ & S). destruct (B _ _ _ _ S) as [_ ->]. auto.
  - destruct S as (-> & _ & S). destruct (B _ _ _ _ S) as [_ ->]. auto.
  - destruct S as (-> & _ & S). destruct (B _ _ _ _ S) as [_ ->]. auto.
  - destruct S as (-> & _ & _ & S). destruct (B _ _ _ _ S) as [_ ->]. auto.
  - destruct S as (-> & _ & _ & _ & _ & S). destruct (B _ _ _ _ S) as [_ ->]. auto.
  - destruct S as (-> & _ & _ & _ & S). destruct (IH _ _ _ S) as (_ & _ & ->). auto.
Qed.

Lemma same_arguments_repr : forall s1 s2 h1 h2 f g, repr h1 s1 f -> repr h2 s2 g -> forward s1 ->
  same_arguments h1 s1 h2 s2 -> repr h2 s2 f.
Proof.
  induction s1 as [b|t|sh ind d|sh fi d|sh crow col d|sh ch a b c d|sh rd rsh rs ro d IH];
    intros s2 h1 h2 f g R1 R2 Hf S; destruct s2 as [b'|t'|sh' ind' d'|sh' fi' d'|sh' crow' col' d'|sh' ch' a' b' c' d'|sh' rd' rsh' rs' ro' d'];
    try contradiction; cbn [same_arguments] in S; cbn [repr] in R1, R2 |- *.
  - destruct R1 as (vs & V & Hv). exists vs. split; [eapply same_buffer_holds; eauto|exact Hv].
  - destruct R1 as (l1 & Hl1 & K1 & F1), R2 as (l2 & Hl2 & K2 & F2).
    destruct S as (Ssh & Sst & Ss & So & _ & vs & m1 & m2 & V1 & V2 & _).
    exists l2. split; [exact Hl2|]. split; [exact K2|]. intros i Hi.
    assert (Hi1 : in_box i (sshape t)) by now rewrite Ssh.
    rewrite F1 by exact Hi1.
    assert (Es : spos t i = spos t' i) by (unfold spos; now rewrite So, Sst). rewrite <- Es.
    pose proof (so_pos _ _ K1 i Hi1) as Hp.
    assert (H0 : 0 <= zdot i (sstrides t)) by (apply zdot_nonneg; [exact Hf|now apply in_box_nonneg in Hi1]).
    destruct V1 as (n1 & N1 & P1 & Z1 & E1 & W1), V2 as (n2 & N2 & P2 & Z2 & E2 & W2).
    rewrite Hl1 in N1. injection N1 as <-. rewrite Hl2 in N2. injection N2 as <-.
    unfold spos in *. unfold zlen in *.
    rewrite (window_nth VNone (Z.to_nat (boff (sdata t))) (length vs) l1) by (rewrite ?skipn_length; lia).
    rewrite (window_nth VNone (Z.to_nat (boff (sdata t))) (length vs) l2) by (rewrite ?skipn_length; lia).
    rewrite W1. rewrite So, W2. reflexivity.
  - destruct R1 as (E & HE & F1), R2 as (E' & HE' & _). exists E.
    destruct S as (-> & (S1 & S2 & S3) & S4). destruct HE as (Q1 & Q2 & Q3 & Q4 & Q5 & Q6 & Q7 & Q8 & Q9).
    destruct HE' as (_ & _ & _ & _ & _ & _ & _ & Q8' & Q9').
    split; [|cbn [shape_of unspecified_of] in *; destruct S4 as (_ & _ & <- & _); exact F1].
    repeat (split; [first [assumption|congruence|eapply same_buffer_holds; eauto]|]). exact Q9'.
  - destruct R1 as (E & HE & F1), R2 as (E' & HE' & _). exists E.
    destruct S as (-> & S1 & S4). destruct HE as (Q1 & Q2 & Q3 & Q4 & Q5 & Q8 & Q9).
    destruct HE' as (_ & _ & _ & _ & _ & Q8' & Q9').
    split; [|cbn [shape_of unspecified_of] in *; destruct S4 as (_ & _ & <- & _); exact F1].
    repeat (split; [first [assumption|congruence|eapply same_buffer_holds; eauto]|]). exact Q9'.
  - destruct R1 as (E & HE & F1), R2 as (E' & HE' & _). exists E.
    destruct S as (-> & S1 & S2 & S4). destruct HE as (Q1 & Q2 & Q3 & Q4 & Q5 & Q6 & _).
    destruct HE' as (_ & _ & _ & _ & _ & _ & Q7' & Q8' & Q9' & Q10').
    split; [|cbn [shape_of unspecified_of] in *; destruct S4 as (_ & _ & <- & _); exact F1].
    repeat (split; [first [assumption|congruence|eapply same_buffer_holds; eauto]|]). exact Q10'.
  - destruct R1 as (E & HE & _). contradiction.
  - destruct R1 as (f1 & Rd & D1 & F1), R2 as (g2 & Rd' & D2 & _).
    destruct S as (-> & -> & -> & -> & S). exists f1. split; [eapply IH; eauto|]. split; [exact D2|exact F1].
Qed.

(** * C71 *)

(** An unabbreviated repr of integers and None tells the class and all
    constructor arguments. *)
Theorem C71_arguments : forall show h1 s1 h2 s2 x,
  shows_plain show -> printable show h1 s1 -> printable show h2 s2 ->
  storage_repr show h1 s1 = Ok x -> storage_repr show h2 s2 = Ok x ->
  same_arguments h1 s1 h2 s2.
Proof.
  intros show h1 s1 h2 s2 x Hsh P1 P2 E1 E2.
  destruct (storage_code show Hsh s1 h1 s2 h2 x x [] [] P1 P2 E1 E2 eq_refl) as [H _]. exact H.
Qed.

(** Hence it tells the array, unless a stride is negative. *)
Theorem C71_array_partial : forall show h1 s1 h2 s2 x,
  shows_plain show -> valid h1 s1 -> valid h2 s2 -> printable show h1 s1 -> printable show h2 s2 -> forward s1 ->
  storage_repr show h1 s1 = Ok x -> storage_repr show h2 s2 = Ok x ->
  class_name s1 = class_name s2 /\ shape_of s1 = shape_of s2 /\ unspecified_of s1 = unspecified_of s2
  /\ forall i, in_box i (shape_of s1) -> get_elem h1 s1 i = get_elem h2 s2 i.
Proof.
  intros show h1 s1 h2 s2 x Hsh [f R1] [g R2] P1 P2 Hf E1 E2.
  pose proof (C71_arguments show h1 s1 h2 s2 x Hsh P1 P2 E1 E2) as S.
  destruct (same_arguments_shape _ _ _ _ S) as (Q1 & Q2 & Q3). split; [exact Q1|]. split; [exact Q2|]. split; [exact Q3|].
  intros i Hi. rewrite (repr_get h1 s1 f i R1 Hi). symmetry. apply repr_get; [|now rewrite <- Q2].
  eapply same_arguments_repr; eauto.
Qed.

(** repr never fails on a well-formed storage. *)
Theorem C71_total : forall show h s, valid h s -> exists x, storage_repr show h s = Ok x.
Proof.
  intros show h s [f Hr].
  assert (B : forall b vs, holds h b vs -> exists x, buffer_repr show h b = Ok x).
  { intros b vs (l & Hl & H0 & Hs & _). unfold buffer_repr. rewrite (cell_ok _ _ _ Hl). cbn [bind].
    replace ((boff b <? 0) || (bsize b <? 0)) with false by (unfold zlen in *; lia). eauto. }
  assert (W : forall t vs, holds h (sdata t) vs -> exists x, strided_repr show h t = Ok x).
  { intros t vs V. unfold strided_repr. destruct (B _ _ V) as [x ->]. cbn [bind]. eauto. }
  revert f Hr. induction s as [b|t|sh ind d|sh fi d|sh crow col d|sh ch a b c d|sh rd rsh rs ro d IH]; intros f Hr;
    cbn [repr storage_repr] in *.
  - destruct Hr as (vs & V & _). eauto.
  - destruct Hr as (l & Hl & K & _). unfold strided_repr, buffer_repr. rewrite (cell_ok _ _ _ Hl). cbn [bind].
    pose proof (so_off _ _ K). pose proof (so_size _ _ K).
    replace ((boff (sdata t) <? 0) || (bsize (sdata t) <? 0)) with false by lia. cbn [bind]. eauto.
  - destruct Hr as (E & (_ & _ & _ & V1 & _ & _ & V2 & _) & _).
    destruct (W _ _ V2) as [x1 ->]. destruct (B _ _ V1) as [x2 ->]. cbn [bind]. eauto.
  - destruct Hr as (E & (_ & _ & _ & V1 & V2 & _) & _).
    destruct (B _ _ V2) as [x1 ->]. destruct (B _ _ V1) as [x2 ->]. cbn [bind]. eauto.
  - destruct Hr as (E & (_ & _ & _ & V1 & V2 & V3 & _) & _).
    destruct (B _ _ V2) as [x1 ->]. destruct (B _ _ V3) as [x2 ->]. destruct (B _ _ V1) as [x3 ->]. cbn [bind]. eauto.
  - destruct Hr as (E & HE & _). contradiction.
  - destruct Hr as (g & Rg & _). destruct (IH g Rg) as [x ->]. cbn [bind]. eauto.
Qed.

(** The reversed view does not show its elements: the reverses of [1, 2, 3] and
    [9, 9, 3] print alike. *)
Definition ints (l : list Z) : source := SrcSeq (VSeq (map VInt l)).
Definition reversed (l : list Z) : res (storage * heap) :=
  '(s, h) <- fromobject CStrided [] (ints l) fo_default ;;
  getitems h s [XItem (ISlice (Sl None None (Some (-1))))].

Theorem C71_reversed_refuted : ~ (forall show h1 s1 h2 s2 x,
  shows_plain show -> valid h1 s1 -> valid h2 s2 -> printable show h1 s1 -> printable show h2 s2 ->
  storage_repr show h1 s1 = Ok x -> storage_repr show h2 s2 = Ok x ->
  forall i, in_box i (shape_of s1) -> get_elem h1 s1 i = get_elem h2 s2 i).
Proof.
  intros H.
  set (t := Str [3] [-1] (Buf 1 2 0%nat VNone)).
  assert (K : forall l, length l = 3%nat -> strided_ok t l).
  { intros l Hl. constructor; unfold spos, t; cbn [sshape sstrides sdata boff bsize length]; try lia.
    - repeat constructor; lia.
    - unfold zlen. rewrite Hl. lia.
    - intros i Hi. apply in_box_1 in Hi. destruct Hi as (x & -> & Hx). cbn [zdot]. lia.
    - intros i j Hi Hj. apply in_box_1 in Hi, Hj. destruct Hi as (x & -> & Hx), Hj as (y & -> & Hy).
      cbn [zdot]. intros E. f_equal. lia. }
  assert (V : forall l, length l = 3%nat -> valid [l] (SStrided t)).
  { intros l Hl. exists (fun i => nth (Z.to_nat (spos t i)) l VNone). exists l. split; [reflexivity|]. split; [now apply K|reflexivity]. }
  assert (P : forall a b, printable show_ints [[a; b; VInt 3]] (SStrided t)).
  { intros a b. constructor; [|constructor]. exists [VInt 3]. split; [|split; [|split]].
    - exists [a; b; VInt 3]. repeat split; cbn; lia.
    - repeat constructor.
    - exact I.
    - cbn. lia. }
  specialize (H show_ints [[VInt 1; VInt 2; VInt 3]] (SStrided t) [[VInt 9; VInt 9; VInt 3]] (SStrided t)).
  assert (Hs : shows_plain show_ints) by (split; reflexivity).
  specialize (H _ Hs (V [VInt 1; VInt 2; VInt 3] eq_refl) (V [VInt 9; VInt 9; VInt 3] eq_refl) (P _ _) (P _ _) eq_refl eq_refl [1]).
  assert (Hb : in_box [1] (shape_of (SStrided t))) by (repeat constructor; lia).
  specialize (H Hb). vm_compute in H. discriminate.
Qed.

(** Long texts are abbreviated: these arrays of 40 elements differ in the middle. *)
Definition forty (z : Z) : list Z := repeat 1 20 ++ [z] ++ repeat 1 19.
Theorem C71_long_refuted : ~ (forall show h1 s1 h2 s2 x,
  shows_plain show -> valid h1 s1 -> valid h2 s2 -> forward s1 ->
  storage_repr show h1 s1 = Ok x -> storage_repr show h2 s2 = Ok x ->
  forall i, in_box i (shape_of s1) -> get_elem h1 s1 i = get_elem h2 s2 i).
Proof.
  intros H. set (b := SBuffer (Buf 40 0 0%nat VNone)).
  assert (V : forall z, valid [map VInt (forty z)] b).
  { intros z. exists (fun i => nth (Z.to_nat (nth 0 i 0)) (map VInt (forty z)) VNone).
    exists (map VInt (forty z)). split; [|reflexivity]. exists (map VInt (forty z)).
    split; [reflexivity|]. split; [cbn; lia|]. split; [reflexivity|]. split; [vm_compute; discriminate|reflexivity]. }
  specialize (H show_ints [map VInt (forty 1)] b [map VInt (forty 2)] b).
  assert (Hs : shows_plain show_ints) by (split; reflexivity).
  specialize (H _ Hs (V 1) (V 2) I eq_refl eq_refl [20]).
  assert (Hb : in_box [20] (shape_of b)) by (repeat constructor; lia).
  specialize (H Hb). vm_compute in H. discriminate.
Qed.
Print Assumptions C71_arguments.
Print Assumptions C71_array_partial.
Print Assumptions C71_total.
Print Assumptions C71_reversed_refuted.
Print Assumptions C71_long_refuted.

(** Texts of the classes. *)
Definition shown (c : cls) (src : source) : res string :=
  '(s, h) <- fromobject c [] src fo_default ;;
  x <- storage_repr show_ints h s ;; Ok (string_of_list_ascii x).
Example C71_texts :
  shown CStrided (ints [1; 2; 3]) = Ok "Strided((3,), (1,), Buffer(3, 0, [1, 2, 3], unspecified=None))"%string
  /\ shown CCOO (SrcSeq nested_2x3)
     = Ok "COO((2, 3), Strided((2, 4), (4, 1), Buffer(8, 0, [0, 0, 1, 1, 0, 2, 1, 2], unspecified=None)), Buffer(4, 0, [1, 3, 5, 0], unspecified=None))"%string.
Proof. split; vm_compute; reflexivity. Qed.
Example C71_reversed_text :
  ('(s, h) <- reversed [1; 2; 3] ;; x <- storage_repr show_ints h s ;; Ok (string_of_list_ascii x))
  = Ok "Strided((3,), (-1,), Buffer(1, 2, ..[3], unspecified=None))"%string.
Proof. vm_compute. reflexivity. Qed.

(** The hypotheses hold for the CSR of the 2 x 3 array. *)
Example C71_case : exists s h,
  fromobject CCSR [] (SrcSeq nested_2x3) (fo_unspecified (Some (VInt 0))) = Ok (s, h)
  /\ valid h s /\ printable show_ints h s /\ forward s.
Proof.
  destruct C22_case as (Q1 & Q2 & (i & x & Q3) & _).
  destruct (C22_fromobject_elements CCSR [] nested_2x3 [2; 3] (Some (VInt 0)) Q1 Q2) as (s & h & E & _ & _ & _ & V & _).
  { intros _. exists i, x. exact Q3. }
  exists s, h. split; [exact E|]. split; [exact V|]. clear V. vm_compute in E. injection E as <- <-. split; [|exact I].
  constructor; [|constructor; [|constructor; [|constructor]]];
    [exists [VInt 0; VInt 2; VInt 3]|exists [VInt 0; VInt 2; VInt 1]|exists [VInt 1; VInt 3; VInt 5]];
    (split; [|split; [repeat constructor|split; [exact I|cbn; lia]]]);
    eexists; (split; [reflexivity|]); repeat split; cbn; lia.
Qed.

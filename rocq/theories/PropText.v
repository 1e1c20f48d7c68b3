(** C70: str() of one- and two-dimensional Strided arrays. *)
From Coq Require Import String Ascii.
From Coq Require Import ZArith NArith Bool Lia List ZifyBool.
From Verif Require Import Py SliceTools Basics Storage Spec SliceFacts IndexFacts
  CompressFacts ReduceFacts SolverFacts SolveFacts Repr ReprFacts ViewFacts BuildFacts SparseFacts
  ConvFacts FromFacts DMFacts ReadFacts MapFacts ChainFacts PropRead.
From Verif Require Version VersionFacts.
Import ListNotations.
Open Scope list_scope.
Open Scope Z_scope.
Notation text := Version.text.
Notation T := Version.T.

(** sep.join(l) *)
Fixpoint join (sep : text) (l : list text) : text :=
  match l with
  | [] => []
  | [w] => w
  | w :: r => w ++ sep ++ join sep r
  end.

(** line[-40:] *)
Definition last40 (s : text) : text := skipn (length s - 40) s.

(** The text of a line: storage.py:415-418. *)
Definition line_str (items : list text) : text :=
  let line := join (T ", ") items in
  let line := if (100 <? length line)%nat then firstn 40 line ++ T "....." ++ last40 line else line in
  T "[" ++ line ++ T "]".

Definition newline : text := [Version.newline].

(** Storage.__str__ of Strided: storage.py:411-424.  [show] is str() of the
    elements.  Other ranks print the repr, which is not modelled. *)
Definition strided_line (show : pyval -> text) (h : heap) (t : strided) : res text :=
  n <- pyget (sshape t) 0 ;;
  l <- mapM (fun i => it <- strided_getitem h t (XItem (IInt i)) ;; x <- item_val it ;; Ok (show x)) (zseq n) ;;
  Ok (line_str l).
Definition strided_str (show : pyval -> text) (h : heap) (t : strided) : res text :=
  match sshape t with
  | [_] => strided_line show h t
  | [n; _] =>
      rows <- mapM (fun i => it <- strided_getitem h t (XItem (IInt i)) ;;
                             match it with
                             | ISto (SStrided r) => strided_line show h r
                             | _ => Raise OutOfModel
                             end) (zseq n) ;;
      Ok (T "[ " ++ join (newline ++ T "  ") rows ++ newline ++ T "]")
  | _ => Raise OutOfModel
  end.

(** * Specification: the text of an array with elements [elem]. *)
Definition array_str (show : pyval -> text) (shape : list Z) (elem : list Z -> pyval) : option text :=
  match shape with
  | [n] => Some (line_str (map (fun i => show (elem [i])) (zseq n)))
  | [n; m] => Some (T "[ "
                    ++ join (newline ++ T "  ")
                         (map (fun i => line_str (map (fun j => show (elem [i; j])) (zseq m))) (zseq n))
                    ++ newline ++ T "]")
  | _ => None
  end.

(** * Lemmas *)
Lemma strided_line_ok show h t f n : repr h (SStrided t) f -> sshape t = [n] -> 0 < n ->
  strided_line show h t = Ok (line_str (map (fun i => show (f [i])) (zseq n))).
Proof.
  intros (l & Hl & Ht & Hf) Hs Hn. unfold strided_line. rewrite Hs. cbn [pyget].
  change (pyget [n] 0) with (@Ok Z n). cbn [bind].
  rewrite mapM_ok with (g := fun i => show (f [i])); [reflexivity|]. intros i Hi. apply In_zseq in Hi.
  assert (Hok : ok_index (XItem (IInt i)) (sshape t)) by (rewrite Hs; split; [repeat constructor|right; cbn; lia]).
  assert (Hp : positive (sshape t)) by (rewrite Hs; repeat constructor; lia).
  destruct (strided_slice_element h t l (XItem (IInt i)) Hl Ht Hp Hok) as [Hb E]; [now rewrite Hs|].
  assert (Es : source_index (XItem (IInt i)) (sshape t) [] = [i]).
  { rewrite Hs. unfold source_index. cbn. now rewrite Z.mod_small by lia. }
  rewrite Es in *. rewrite E. cbn [bind item_val]. rewrite Hf by exact Hb. reflexivity.
Qed.

Lemma strided_str_ok show h t f s : repr h (SStrided t) f -> positive (sshape t) ->
  array_str show (sshape t) f = Some s -> strided_str show h t = Ok s.
Proof.
  intros Hr Hp. pose proof Hr as (l & Hl & Ht & Hf). unfold strided_str, array_str.
  destruct (sshape t) as [|n [|m [|? ?]]] eqn:Hs; try discriminate; inversion Hp as [|? ? Hn Hp']; subst.
  - intros E. injection E as <-. now apply strided_line_ok.
  - inversion Hp' as [|? ? Hm _]; subst. intros E. injection E as <-.
    rewrite mapM_ok with (g := fun i => line_str (map (fun j => show (f [i; j])) (zseq m))); [reflexivity|].
    intros i Hi. apply In_zseq in Hi.
    assert (Hok : ok_index (XItem (IInt i)) (sshape t)) by (rewrite Hs; split; [repeat constructor|right; cbn; lia]).
    assert (Hpp : positive (sshape t)) by (rewrite Hs; repeat constructor; lia).
    destruct (strided_slice h t l (XItem (IInt i)) Hl Ht Hpp Hok) as (r & E1 & E2 & E3 & E4 & E5 & E6);
      [rewrite Hs; discriminate|].
    rewrite E1. cbn [bind]. rewrite Hs in E2. change (slice_shape (XItem (IInt i)) [n; m]) with [m] in E2.
    rewrite (strided_line_ok show h r (fun j => f (i :: j)) m); [reflexivity| |exact E2|exact Hm].
    exists l. split; [now rewrite E3|]. split; [exact E5|]. intros j Hj. destruct (E6 j Hj) as [B P].
    assert (Es : source_index (XItem (IInt i)) (sshape t) j = i :: j).
    { rewrite Hs. rewrite E2 in Hj. inversion Hj as [|x ? j' ? Hx Hj']; subst. inversion Hj'; subst.
      unfold source_index. cbn. rewrite Z.mod_small by lia. reflexivity. }
    rewrite Es in B, P. rewrite P. apply Hf. now rewrite Hs in *.
Qed.

(** * C70 *)
Theorem C70_str : forall show h t elem s,
  valid h (SStrided t) -> positive (sshape t) ->
  (forall i, in_box i (sshape t) -> get_elem h (SStrided t) i = Ok (elem i)) ->
  array_str show (sshape t) elem = Some s ->
  strided_str show h t = Ok s.
Proof.
  intros show h t elem s [f Hr] Hp He Hs. apply (strided_str_ok show h t elem); auto.
  eapply repr_ext; [|exact Hr]. intros i Hi. pose proof (repr_get h _ f i Hr Hi) as Hg.
  rewrite He in Hg by exact Hi. congruence.
Qed.

(** Arrays with the same shape and elements print alike, however they are laid
    out. *)
Theorem C70_same_elements_same_text : forall show h1 t1 h2 t2 s,
  valid h1 (SStrided t1) -> valid h2 (SStrided t2) -> sshape t1 = sshape t2 -> positive (sshape t1) ->
  (forall i, in_box i (sshape t1) -> get_elem h1 (SStrided t1) i = get_elem h2 (SStrided t2) i) ->
  strided_str show h1 t1 = Ok s -> strided_str show h2 t2 = Ok s.
Proof.
  intros show h1 t1 h2 t2 s [f1 R1] [f2 R2] Hsh Hp He E.
  assert (R2' : repr h2 (SStrided t2) f1).
  { eapply repr_ext; [|exact R2]. intros i Hi. cbn [shape_of] in Hi.
    assert (Hi1 : in_box i (sshape t1)) by now rewrite Hsh.
    pose proof (He i Hi1) as H. rewrite (repr_get h1 _ f1 i R1 Hi1), (repr_get h2 _ f2 i R2 Hi) in H. congruence. }
  destruct (array_str show (sshape t1) f1) as [s'|] eqn:Ea.
  - pose proof (strided_str_ok show h1 t1 f1 s' R1 Hp Ea) as E1. rewrite E in E1. injection E1 as ->.
    apply (strided_str_ok show h2 t2 f1); [exact R2'|now rewrite <- Hsh|now rewrite <- Hsh].
  - exfalso. unfold array_str in Ea. unfold strided_str in E. destruct (sshape t1) as [|n [|m [|? ?]]]; discriminate.
Qed.

(** A line has at most 102 characters. *)
Theorem C70_bounded : forall show h t n s,
  valid h (SStrided t) -> sshape t = [n] -> 0 < n -> strided_str show h t = Ok s -> (length s <= 102)%nat.
Proof.
  intros show h t n s [f Hr] Hs Hn E. unfold strided_str in E. rewrite Hs in E.
  rewrite (strided_line_ok show h t f n Hr Hs Hn) in E. injection E as <-. unfold line_str.
  set (l := join _ _). clearbody l. rewrite !app_length. change (length (T "[")) with 1%nat. change (length (T "]")) with 1%nat.
  destruct (100 <? length l)%nat eqn:El; [|apply Nat.ltb_ge in El; lia].
  unfold last40. rewrite !app_length, firstn_length, skipn_length. change (length (T ".....")) with 5%nat. lia.
Qed.

(** If it is not shortened, the text of a line of integers tells the integers. *)
Lemma int_text_chars z : Version.int_text z <> [] /\ ~ In ","%char (Version.int_text z).
Proof.
  assert (D : forall n, ~ In ","%char (Version.nat_text n)).
  { intros n H. pose proof (VersionFacts.nat_text_digits n) as F. rewrite Forall_forall in F. now apply F in H. }
  unfold Version.int_text. destruct (z <? 0); [split; [discriminate|]|].
  - cbn [In]. intros [H|H]; [discriminate|]. now apply D in H.
  - split; [apply VersionFacts.nat_text_nonempty|apply D].
Qed.

Lemma int_text_inj a b : Version.int_text a = Version.int_text b -> a = b.
Proof.
  assert (D : forall n r, Version.nat_text n <> "-"%char :: r).
  { intros n r H. pose proof (VersionFacts.nat_text_digits n) as F. rewrite H in F. inversion F; discriminate. }
  unfold Version.int_text. destruct (a <? 0) eqn:Ea, (b <? 0) eqn:Eb; intros E.
  - injection E as E. apply VersionFacts.nat_text_inj in E. lia.
  - symmetry in E. now apply D in E.
  - now apply D in E.
  - apply VersionFacts.nat_text_inj in E. lia.
Qed.

Lemma join_inj a b : Forall (fun w : text => w <> [] /\ ~ In ","%char w) a -> Forall (fun w : text => w <> [] /\ ~ In ","%char w) b ->
  join (T ", ") a = join (T ", ") b -> a = b.
Proof.
  revert b. induction a as [|x a IH]; intros b Ha Hb E.
  - destruct b as [|y b]; [reflexivity|]. exfalso. inversion Hb as [|? ? [Hy _] _]; subst.
    destruct y; [now apply Hy|]. destruct b; discriminate.
  - destruct b as [|y b].
    { exfalso. inversion Ha as [|? ? [Hx _] _]; subst. destruct x; [now apply Hx|]. destruct a; discriminate. }
    inversion Ha as [|? ? [Hx Nx] Ha']; subst. inversion Hb as [|? ? [Hy Ny] Hb']; subst.
    destruct a as [|x2 a], b as [|y2 b]; cbn [join] in E.
    + now subst.
    + exfalso. apply Nx. rewrite E, in_app_iff. right. now left.
    + exfalso. apply Ny. rewrite <- E, in_app_iff. right. now left.
    + apply (VersionFacts.split_char ","%char x y) in E; auto. destruct E as [-> E].
      f_equal. apply IH; auto. cbn in E. now injection E.
Qed.

Theorem C70_faithful : forall show h1 t1 h2 t2 n1 n2 z1 z2,
  (forall z, show (VInt z) = Version.int_text z) ->
  valid h1 (SStrided t1) -> valid h2 (SStrided t2) -> sshape t1 = [n1] -> sshape t2 = [n2] -> 0 < n1 -> 0 < n2 ->
  (forall i, 0 <= i < n1 -> get_elem h1 (SStrided t1) [i] = Ok (VInt (z1 i))) ->
  (forall i, 0 <= i < n2 -> get_elem h2 (SStrided t2) [i] = Ok (VInt (z2 i))) ->
  (length (join (T ", ") (map (fun i => Version.int_text (z1 i)) (zseq n1))) <= 100)%nat ->
  (length (join (T ", ") (map (fun i => Version.int_text (z2 i)) (zseq n2))) <= 100)%nat ->
  strided_str show h1 t1 = strided_str show h2 t2 ->
  n1 = n2 /\ forall i, 0 <= i < n1 -> z1 i = z2 i.
Proof.
  intros show h1 t1 h2 t2 n1 n2 z1 z2 Hsh V1 V2 S1 S2 N1 N2 E1 E2 L1 L2 E.
  assert (G : forall h t n z, valid h (SStrided t) -> sshape t = [n] -> 0 < n ->
    (forall i, 0 <= i < n -> get_elem h (SStrided t) [i] = Ok (VInt (z i))) ->
    (length (join (T ", ") (map (fun i => Version.int_text (z i)) (zseq n))) <= 100)%nat ->
    strided_str show h t = Ok (T "[" ++ join (T ", ") (map (fun i => Version.int_text (z i)) (zseq n)) ++ T "]")).
  { intros h t n z V S N Hz L. apply (C70_str show h t (fun i => VInt (z (nth 0 i 0)))); auto.
    - rewrite S. repeat constructor. lia.
    - intros i Hi. rewrite S in Hi. inversion Hi as [|x ? j ? Hx Hj]; subst. inversion Hj; subst. cbn [nth]. now apply Hz.
    - rewrite S. cbn [array_str nth]. f_equal. unfold line_str.
      rewrite (map_ext _ (fun i => Version.int_text (z i))) by (intros a; apply Hsh).
      replace (100 <? _)%nat with false by (symmetry; apply Nat.ltb_ge; exact L). reflexivity. }
  rewrite (G h1 t1 n1 z1 V1 S1 N1 E1 L1), (G h2 t2 n2 z2 V2 S2 N2 E2 L2) in E. injection E as E.
  apply app_inv_tail in E. apply join_inj in E.
  2,3: apply Forall_forall; intros w Hw; apply in_map_iff in Hw; destruct Hw as (i & <- & _); apply int_text_chars.
  assert (Hn : n1 = n2).
  { apply (f_equal (@length _)) in E. rewrite !map_length, !zseq_length_nat in E. lia. }
  split; [exact Hn|]. subst n2. intros i Hi. apply int_text_inj.
  assert (Hin : In i (zseq n1)) by (apply In_zseq; lia). clear - E Hin.
  induction (zseq n1) as [|k l IH]; [contradiction|]. cbn in E. injection E as Ek E. destruct Hin as [->|Hin]; auto.
Qed.
Print Assumptions C70_str.
Print Assumptions C70_same_elements_same_text.
Print Assumptions C70_bounded.
Print Assumptions C70_faithful.

(** A reversed column of a 2 x 3 array. *)
Definition show_ints (v : pyval) : text := match v with VInt z => Version.int_text z | _ => T "None" end.
Example C70_case :
  ('(s, h) <- fromobject CStrided [] (SrcSeq nested_2x3) fo_default ;;
   '(v, h1) <- getitems h s [XTuple [INone; ISlice (Sl None None (Some (-2)))]] ;;
   match v with
   | SStrided t => a <- strided_str show_ints h1 t ;; Ok (string_of_list_ascii a)
   | _ => Raise OutOfModel
   end) = Ok ("[ [3, 1]" ++ String (ascii_of_nat 10) ("  [0, None]" ++ String (ascii_of_nat 10) "]"))%string.
Proof. vm_compute. reflexivity. Qed.

(** C96: what an element that several threads assign to holds in the end, for
    arrays of all classes. *)
From Verif Require Import Py SliceTools Basics Storage Spec SliceFacts IndexFacts SolverFacts Repr ReprFacts SparseFacts
  CompressFacts ReduceFacts MapFacts DMFacts WriteFacts RefineFacts PropWrite Threads ThreadFacts PropThreads PropRaces PropFlow.
From Coq Require Import List.
Import ListNotations.

Section Hits.
Variable h0 : heap.
Variable K : nat -> Prop.
Variable qa : nat.
Variable qp : Z.

(** The program writes position [qp] of the list [qa] before it ends, unless it
    fails. *)
Fixpoint hits {A} (m : prog A) : Prop :=
  match m with
  | Ret (Ok _) => False
  | Ret (Raise _) => True
  | Get a p k => (forall v, hits (k v)) \/ (K a /\ exists v, hget h0 a p = Ok v /\ hits (k v))
  | Put a p v k => (a = qa /\ p = qp) \/ hits k
  end.
Lemma hits_left {A B} (f : A -> prog B) : forall m, hits m -> hits (pbind m f).
Proof.
  induction m as [[x|e]|a p k IH|a p v k IH]; cbn [hits pbind]; [intros []|auto| |].
  - intros [H|(H1 & v & H2 & H3)]; [left; intros v; now apply IH|right]. split; [exact H1|]. exists v. split; [exact H2|]. now apply IH.
  - intros [H|H]; [now left|right; now apply IH].
Qed.
Lemma hits_right {A B} (f : A -> prog B) : (forall x, hits (f x)) -> forall m, hits (pbind m f).
Proof.
  intros H. induction m as [[x|e]|a p k IH|a p v k IH]; cbn [hits pbind]; [apply H|exact I| |].
  - left. intros v. apply IH.
  - right. exact IH.
Qed.
Lemma hits_still {A B} (m : prog A) (f : A -> prog B) : within (fun a _ => K a) (fun _ _ => False) m ->
  forall x, snd (run m h0) = Ok x -> hits (f x) -> hits (pbind m f).
Proof.
  induction m as [r|a p k IH|a p v k IH]; intros Hw x E Hf; cbn [within run hits pbind] in *.
  - cbn [snd] in E. subst r. exact Hf.
  - destruct Hw as [W1 W2]. destruct (hget h0 a p) as [v|] eqn:Ev; [|discriminate]. right. split; [exact W1|]. exists v. split; [reflexivity|].
    now apply (IH v (W2 v) x).
  - destruct Hw as [[] _].
Qed.

(** The loop [G] calls its body with [x], unless it fails. *)
Definition calls {X} (G : generator_t X) (x : X) : Prop := forall bt, hits (bt x) -> hits (G bt).
Lemma for_hits {Y} (body : Y -> prog unit) : forall l y, In y l -> hits (body y) -> hits (for_t l body).
Proof.
  induction l as [|z l IH]; intros y Hy H; [destruct Hy|]. cbn [for_t]. destruct Hy as [->|Hy]; [now apply hits_left|].
  apply hits_right. intros _. now apply (IH y).
Qed.
Lemma in_mapM {X Y} (g : Y -> res X) : forall l L x, mapM g l = Ok L -> In x L -> exists y, In y l /\ g y = Ok x.
Proof.
  induction l as [|y l IH]; intros L x E Hx; cbn [mapM] in E; [injection E as <-; destruct Hx|].
  apply bind_ok in E as (z & Ez & E). apply bind_ok in E as (L' & EL & E). injection E as <-.
  destruct Hx as [<-|Hx]; [exists y; split; [now left|exact Ez]|]. destruct (IH L' x EL Hx) as (y' & Hy' & Ey'). exists y'. split; [now right|exact Ey'].
Qed.
Lemma strided_calls sh st off L x : strided_slice_iad sh st off = Ok L -> In x L -> calls (strided_slice_gen_t sh st off) x.
Proof.
  intros E Hx bt Hb. unfold strided_slice_gen_t. destruct (in_mapM _ _ _ _ E Hx) as (y & Hy & Ey). apply (for_hits _ _ y Hy).
  apply bind_ok in Ey as (p & -> & Ey). injection Ey as <-. exact Hb.
Qed.
Lemma dm_calls sh rd rsh rs ro L x : dm_iad sh rd rsh rs ro = Ok L -> In x L -> calls (dm_gen_t sh rd rsh rs ro) x.
Proof.
  intros E Hx bt Hb. unfold dm_gen_t. destruct (in_mapM _ _ _ _ E Hx) as (y & Hy & Ey). apply (for_hits _ _ y Hy).
  apply bind_ok in Ey as (p & -> & Ey). injection Ey as <-. exact Hb.
Qed.
Lemma slice_calls {P} sh0 (G : generator_t (list Z * P)) l sh st off L x : (forall y, In y l -> calls G y) ->
  slice_iad sh0 (Ok l) sh st off = Ok L -> In x L -> calls (slice_gen_t sh0 G sh st off) x.
Proof.
  intros Hg E Hx bt Hb. unfold slice_gen_t, slice_iad in *. apply bind_ok in E as (sd & -> & E). cbn [pbind bind] in *.
  revert L E Hx. induction l as [|[ix p] l IH]; intros L E Hx; cbn [slice_iad_loop] in E; [injection E as <-; destruct Hx|].
  apply bind_ok in E as (sp & E1 & E). apply bind_ok in E as (o & E2 & E). apply bind_ok in E as (rest & E3 & E).
  assert (D : (exists six, o = Some six /\ x = (six, p)) \/ In x rest).
  { destruct o as [six|]; injection E as <-; [|now right]. destruct Hx as [<-|Hx]; [left; now exists six|now right]. }
  destruct D as [(six & -> & ->)|Hr].
  - apply (Hg (ix, p)); [now left|]. cbn [fst snd]. rewrite E1. cbn [pbind]. rewrite E2. exact Hb.
  - apply (IH (fun y Hy => Hg y (or_intror Hy)) rest E3 Hr).
Qed.
Lemma int_hits b i : K (baddr b) -> forall x, buf_int h0 b i = Ok x ->
  forall B (f : Z -> prog B), hits (f x) -> hits (pbind (buf_int_t b i) f).
Proof.
  intros Hb x Ex B f Hf. apply (hits_still _ f (w_buf_int _ _ b i (fun _ => Hb))) with (x := x); [|exact Hf]. now rewrite reads_buf_int.
Qed.
Lemma sparse_calls s E L x : entries h0 s E -> (forall a, In a (index_addrs s) -> K a) -> sparse_iad h0 s = Ok L -> In x L -> calls (sparse_gen_t s) x.
Proof.
  intros HE HK EL Hx bt Hb. destruct s as [b|t|sh ind d|sh fi d|sh cr co d|sh ch a b c d|sh rd rsh rs ro d]; try contradiction; cbn [sparse_iad sparse_gen_t index_addrs] in *.
  - unfold coo_iad in EL. unfold coo_gen_t. apply bind_ok in EL as (n & -> & EL). apply bind_ok in EL as (rows & E0 & EL). cbn [pbind].
    destruct (in_mapM _ _ _ _ EL Hx) as (pos & Hpos & Ex). apply (for_hits _ _ pos Hpos). rewrite E0. cbn [pbind].
    apply bind_ok in Ex as (ix & Ei & Ex). injection Ex as <-.
    apply (hits_still _ (fun ix => bt (ix, pos))) with (x := ix); [| |exact Hb].
    + generalize (zseq rows). intros js. induction js as [|j js IHj]; cbn [mapM_t]; [exact I|].
      apply within_bind; [apply w_strided_int; intros q; apply HK; now left|]. intros y. apply within_bind; [exact IHj|]. intros ys. exact I.
    + rewrite (reads_mapM _ (fun h j => strided_int h ind (int_tuple [j; pos]))); [exact Ei|].
      intros j. apply reads_strided_int. destruct HE as (_ & _ & _ & _ & -> & _). reflexivity.
  - unfold flatcoo_iad in EL. unfold flatcoo_gen_t. apply bind_ok in EL as (sd & -> & EL). cbn [pbind].
    destruct (in_mapM _ _ _ _ EL Hx) as (pos & Hpos & Ex). apply (for_hits _ _ pos Hpos).
    apply bind_ok in Ex as (f & Ef & Ex). apply bind_ok in Ex as (i & Ei & Ex).
    apply (int_hits fi pos (HK _ (or_introl eq_refl)) f Ef). rewrite Ei. cbn [pbind]. destruct i as [ix|]; [|discriminate]. injection Ex as <-. exact Hb.
  - unfold csr_iad in EL. unfold csr_gen_t. apply bind_ok in EL as (n & -> & EL). cbn [pbind].
    revert L EL Hx. induction (zseq n) as [|r rows IHr]; intros L EL Hx; cbn [csr_iad_rows for_t] in *; [injection EL as <-; destruct Hx|].
    apply bind_ok in EL as (y & Ey & EL). apply bind_ok in EL as (z & Ez & EL). apply bind_ok in EL as (l & El & EL). apply bind_ok in EL as (rest & Er & EL).
    injection EL as <-. apply in_app_or in Hx as [Hx|Hx]; [apply hits_left|apply hits_right; intros _; exact (IHr rest Er Hx)].
    apply (int_hits cr r (HK _ (or_introl eq_refl)) y Ey). apply (int_hits cr (r + 1) (HK _ (or_introl eq_refl)) z Ez).
    destruct (in_mapM _ _ _ _ El Hx) as (pos & Hpos & Ex). apply (for_hits _ _ pos Hpos).
    apply bind_ok in Ex as (c & Ec & Ex). injection Ex as <-. now apply (int_hits co pos (HK _ (or_intror (or_introl eq_refl))) c Ec).
Qed.

Lemma element_hits d r v : elem_data d -> valid h0 d -> in_box r (shape_of d) -> kept h0 d r qa qp -> hits (setitem_t d (int_tuple r) (SrcSeq v)).
Proof.
  intros Hd [f Hf] Hr Hk. destruct d as [b|t| | | | |]; try contradiction; cbn [shape_of] in *.
  - apply box1 in Hr as (k & -> & Hk'). cbn [setitem_t]. unfold buffer_setitem_t, int_tuple. cbn [map buf_complete_index].
    unfold buf_write_t. cbn [hits]. left. inversion Hk; subst; [now split|contradiction].
  - destruct Hf as (l & El & S & _). destruct (strided_positions t l (int_tuple r) S (in_box_positive_shape _ _ Hr) (int_tuple_ok r _ (in_box_len _ _ Hr))) as (L & EL & HL & _ & HR & _).
    cbn [setitem_t]. destruct (normalize_index _ _) as [nix|]; cbn [bind] in *; [|discriminate].
    destruct (index_strided _ _ _ _) as [[[sh st] off]|]; cbn [bind pbind] in *; [|discriminate].
    assert (Hin : In ([], spos t r - boff (sdata t)) L).
    { apply HL. rewrite int_tuple_shape by (now apply in_box_len). split; [constructor|]. rewrite (int_tuple_source r _ Hr). lia. }
    apply (strided_calls sh st off L _ EL Hin). unfold put_t. cbn [fst snd get_value_t]. replace (seq_value v []) with (Ok v) by reflexivity.
    cbn [pbind]. unfold buf_write_t. cbn [hits]. left. inversion Hk; subst; [|contradiction]. split; [reflexivity|lia].
Qed.

Lemma assign_hits s ix value j : valid h0 s -> positive (shape_of s) -> ok_index ix (shape_of s) ->
  match s with SStrided _ => True | _ => slice_writes s /\ slice_shape ix (shape_of s) <> [] end ->
  (forall a, In a (index_addrs s) -> K a) ->
  in_box j (slice_shape ix (shape_of s)) -> kept h0 s (source_index ix (shape_of s) j) qa qp ->
  hits (setitem_t s ix value).
Proof.
  intros [f Hf] Hp Hok Hs HI Hj Hk.
  assert (PUT : forall P (w : P -> pyval -> prog unit) p, (forall x, hits (w p x)) -> hits (put_t w value (j, p))).
  { intros P w p Hw. unfold put_t. cbn [fst snd]. now apply hits_right. }
  assert (SPARSE : is_sparse s -> slice_shape ix (shape_of s) <> [] -> hits (setitem_t s ix value)).
  { intros Hsp Hn.
    assert (Hx : exists d E k, entries h0 s E /\ data_buffer s = Ok d /\ 0 <= k < zlen E
      /\ fst (nth (Z.to_nat k) E ([], VNone)) = source_index ix (shape_of s) j /\ qa = baddr d /\ qp = boff d + k).
    { destruct s; try contradiction; inversion Hk; subst; eauto 9. }
    destruct Hx as (d & E & k & HE & Ed & Hk' & Ei & -> & ->).
    destruct (sparse_positions h0 s E ix HE Hp Hok Hn) as (L & d' & EL & Ed' & HL & _). assert (d' = d) by congruence. subst d'.
    assert (Hu : setitem_t s ix value =
      pbind (Ret (nix <- normalize_index ix (shape_of s) ;;
                  '(sh, st, off) <- index_strided nix (shape_of s) (strides_of s) 0 ;;
                  d <- data_buffer s ;; Ok (sh, st, off, d)))
        (fun '(sh, st, off, d) => slice_gen_t (shape_of s) (sparse_gen_t s) sh st off (put_t (buf_write_t d) value)))
      by (destruct s; try contradiction; reflexivity).
    rewrite Hu. clear Hu. destruct (normalize_index ix (shape_of s)) as [nix|]; cbn [bind] in *; [|discriminate].
    destruct (index_strided _ _ _ _) as [[[sh st] off]|]; cbn [bind] in *; [|discriminate]. rewrite Ed in *. cbn [bind pbind] in *.
    destruct (slice_iad _ _ _ _ _) as [L0|] eqn:ES; cbn [bind] in EL; [|discriminate]. injection EL as ->.
    destruct (sparse_iad h0 s) as [l|] eqn:El; [|unfold slice_iad in ES; destruct (init_diophantine _ _); discriminate].
    assert (Hin : In (j, k) L) by (apply HL; split; [exact Hj|]; apply In_numbered; split; [exact Hk'|symmetry; exact Ei]).
    apply (slice_calls _ _ l _ _ _ L (j, k) (fun y => sparse_calls s E l y HE HI El) ES Hin).
    apply PUT. intros x. unfold buf_write_t. cbn [hits]. now left. }
  destruct s as [b|t|sh ind d|sh fi d|sh cr co d|sh ch a b c d|sh rd rsh rs ro d]; try (apply SPARSE; [exact I|apply Hs]).
  - destruct Hs as [[] _].
  - clear SPARSE. cbn [shape_of] in *. destruct Hf as (l & El & S & _). destruct (strided_positions t l ix S Hp Hok) as (L & EL & HL & _ & HR & _).
    cbn [setitem_t]. destruct (normalize_index _ _) as [nix|]; cbn [bind] in *; [|discriminate].
    destruct (index_strided _ _ _ _) as [[[sh st] off]|]; cbn [bind pbind] in *; [|discriminate].
    assert (Hin : In (j, spos t (source_index ix (sshape t) j) - boff (sdata t)) L) by (apply HL; split; [exact Hj|lia]).
    apply (strided_calls sh st off L _ EL Hin). apply PUT. intros x. unfold buf_write_t. cbn [hits]. left.
    inversion Hk; subst; [|contradiction]. split; [reflexivity|lia].
  - destruct Hs as [[] _].
  - clear SPARSE. cbn [shape_of index_addrs] in *. destruct Hs as [Hw Hn]. destruct Hf as (g & Hg & Hd & _).
    destruct (dm_positions sh rd rsh rs ro _ ix Hd Hp Hok Hn) as (L & EL & HL & _ & HB).
    assert (He : elem_data d) by (destruct d; try contradiction; exact I).
    cbn [setitem_t]. destruct (normalize_index _ _) as [nix|]; cbn [bind] in *; [|discriminate].
    destruct (index_strided _ _ _ _) as [[[sh' st] off]|]; cbn [bind pbind] in *; [|discriminate].
    destruct (dm_iad sh rd rsh rs ro) as [l|] eqn:El; [|unfold slice_iad in EL; destruct (init_diophantine _ _); discriminate].
    assert (Hin : In (j, dm_index rd rs ro (source_index ix sh j)) L) by (apply HL; now split).
    rewrite Forall_forall in HB. specialize (HB _ Hin). cbn [snd] in HB.
    apply (slice_calls _ _ l _ _ _ L _ (fun y => dm_calls sh rd rsh rs ro l y El) EL Hin). apply PUT. intros x.
    apply element_hits; [exact He|now exists g|exact HB|]. inversion Hk; subst; [contradiction|assumption].
Qed.

Lemma thread_hits s ix value j : forall ops, Forall (flow_op h0) ops -> In (Assign s ix value) ops ->
  (forall a, In a (index_addrs s) -> K a) -> in_box j (slice_shape ix (shape_of s)) -> kept h0 s (source_index ix (shape_of s) j) qa qp ->
  hits (thread ops).
Proof.
  induction ops as [|o ops IH]; intros HF Hin HK Hj Hk; [destruct Hin|]. inversion HF as [|? ? Fo Fr]; subst. destruct Hin as [->|Hin].
  - cbn [thread]. apply hits_left. destruct Fo as (V1 & P1 & O1 & T1 & _). now apply (assign_hits s ix value j).
  - assert (X := IH Fr Hin HK Hj Hk). destruct o as [s' i|s' ix' value']; cbn [thread]; apply hits_right; intros x; [now apply hits_left|exact X].
Qed.

(** Once the element has been written it holds a value of [W]; until then some
    thread is going to write it. *)
Definition settled {A} (W : nat -> Z -> pyval -> Prop) (h : heap) (ts : list (prog A)) : Prop :=
  (exists x, hget h qa qp = Ok x /\ W qa qp x) \/ exists t, In t ts /\ hits t.
Lemma exec_settled {A} V R W : 0 <= qp -> forall sched h (ts : list (prog A)) Qs h' ts', invariant h0 K V h ->
  Forall2 (fun Q t => safe h0 K V R W Q t) Qs ts -> settled W h ts -> exec sched h ts = (h', ts') -> settled W h' ts'.
Proof.
  intros Hq. induction sched as [|n sched IH]; intros h ts Qs h' ts' Hh HF Hs E; cbn [exec] in E; [injection E as <- <-; exact Hs|].
  destruct (nth_error ts n) as [t|] eqn:Ej; [|eapply IH; eassumption].
  destruct (advance h t) as [h1 t1] eqn:E1. destruct (Forall2_nth _ _ _ HF n t Ej) as (Q & EQ & HQ).
  destruct (advance_safe h0 K V R W Q h t h1 t1 Hh HQ E1) as [X1 X2]. eapply (IH h1); [exact X1|eapply Forall2_set; eassumption| |exact E].
  assert (New : forall u, hits u -> In u ts -> u <> t \/ hits t1 -> exists u', In u' (set_nth n t1 ts) /\ hits u').
  { intros u Hu Hin [N|Ht].
    - apply In_nth_error in Hin as (m & Em). destruct (Nat.eq_dec n m) as [<-|Nm]; [congruence|]. exists u. split; [|exact Hu].
      apply nth_error_In with m. rewrite set_nth_nth. destruct (Nat.eqb_spec n m); [contradiction|exact Em].
    - exists t1. split; [|exact Ht]. apply nth_error_In with n. rewrite set_nth_nth, Nat.eqb_refl, Ej. reflexivity. }
  destruct t as [r|a p k|a p v k]; cbn [advance safe] in *.
  - injection E1 as <- <-. rewrite set_nth_self by exact Ej. exact Hs.
  - assert (h1 = h) as -> by (destruct (hget h a p); now injection E1 as <- _). destruct Hs as [Hs|(u & Hin & Hu)]; [now left|]. right.
    apply (In_nth_error) in Hin as (m & Em). destruct (Nat.eq_dec n m) as [<-|Nm].
    + assert (u = Get a p k) as -> by congruence. exists t1. split; [apply nth_error_In with n; rewrite set_nth_nth, Nat.eqb_refl, Ej; reflexivity|].
      cbn [hits] in Hu. destruct Hu as [Hu|(Ka & w & Ew & Hu)].
      * destruct (hget h a p); injection E1 as <-; [apply Hu|exact I].
      * rewrite (hget_still h0 K V h a p Hh Ka), Ew in E1. injection E1 as <-. exact Hu.
    + exists u. split; [|exact Hu]. apply nth_error_In with m. rewrite set_nth_nth. destruct (Nat.eqb_spec n m); [contradiction|exact Em].
  - destruct HQ as (H1 & H2 & (H3 & H4) & H5). destruct (hput_in h a p v) as (h2 & E2); [now rewrite (proj1 (proj1 Hh))|]. rewrite E2 in E1. injection E1 as <- <-.
    destruct (Nat.eq_dec a qa) as [->|Na]; [destruct (Z.eq_dec p qp) as [->|Np]|].
    + left. exists v. split; [exact (hget_same h qa qp v h2 Hq E2)|exact H4].
    + assert (D : differ (sizes h) qa p qa qp) by (right; unfold norm; destruct (Z.ltb_spec p 0), (Z.ltb_spec qp 0); lia).
      destruct Hs as [(x & Ex & Wx)|(u & Hin & Hu)]; [left; exists x; split; [now rewrite (hget_other h qa p v h2 qa qp E2 D)|exact Wx]|right].
      apply In_nth_error in Hin as (m & Em). destruct (Nat.eq_dec n m) as [<-|Nm].
      * assert (u = Put qa p v k) as -> by congruence. exists k. split; [apply nth_error_In with n; rewrite set_nth_nth, Nat.eqb_refl, Ej; reflexivity|].
        cbn [hits] in Hu. destruct Hu as [[_ Hu]|Hu]; [contradiction|exact Hu].
      * exists u. split; [|exact Hu]. apply nth_error_In with m. rewrite set_nth_nth. destruct (Nat.eqb_spec n m); [contradiction|exact Em].
    + assert (D : differ (sizes h) a p qa qp) by now left.
      destruct Hs as [(x & Ex & Wx)|(u & Hin & Hu)]; [left; exists x; split; [now rewrite (hget_other h a p v h2 qa qp E2 D)|exact Wx]|right].
      apply In_nth_error in Hin as (m & Em). destruct (Nat.eq_dec n m) as [<-|Nm].
      * assert (u = Put a p v k) as -> by congruence. exists k. split; [apply nth_error_In with n; rewrite set_nth_nth, Nat.eqb_refl, Ej; reflexivity|].
        cbn [hits] in Hu. destruct Hu as [[Hu _]|Hu]; [contradiction|exact Hu].
      * exists u. split; [|exact Hu]. apply nth_error_In with m. rewrite set_nth_nth. destruct (Nat.eqb_spec n m); [contradiction|exact Em].
Qed.
End Hits.

Lemma kept_position h : forall s i a p, valid h s -> in_box i (shape_of s) -> kept h s i a p -> 0 <= p.
Proof.
  intros s i a p Hv Hi Hk. revert Hv Hi. induction Hk as [b k|t i|s d E i k HE Ed Hk Ei|sh rd rsh rs ro d i a p Hk IH]; intros [f Hf] Hi.
  - destruct Hf as (vs & (l & _ & Ho & _) & _). apply box1 in Hi as (k' & Ek & Hk'). injection Ek as ->. lia.
  - destruct Hf as (l & El & S & _). pose proof (so_pos _ _ S i Hi). lia.
  - pose proof (data_buffer_holds h s E d HE Ed) as (l & _ & Ho & _). lia.
  - destruct Hf as (g & Hg & Hd & _). apply IH; [now exists g|]. apply (dm_box _ _ _ _ _ _ Hd i Hi).
Qed.

(** [x] is a value that a statement of a thread assigns to position [p] of the list
    [a]: the one a list has for the element kept there, or one that the element an
    array copies to it may have had. *)
Definition assigned_at (h : heap) (programs : list (list op)) (a : nat) (p : Z) (x : pyval) : Prop :=
  exists s ix value j, stated programs (Assign s ix value) /\ in_box j (slice_shape ix (shape_of s))
    /\ kept h s (source_index ix (shape_of s) j) a p
    /\ match value with
       | SrcSeq v => nested_at v j = Some x
       | SrcSto t => gives h (possible h programs) t j x
       end.

(** Any number of threads assign lists and arrays to arrays of all classes, with
    overlaps.  Under every schedule that lets them end, an element that some thread
    assigned to does not keep its old value: through whatever array it is seen, it
    has a value that a thread assigned to it. *)
Theorem C96_any_arrays_partial : forall programs h sched h' rs,
  Forall (Forall (flow_op h)) programs -> indices_untouched programs ->
  exec sched h (map thread programs) = (h', map Ret rs) ->
  forall s ix value j a p, stated programs (Assign s ix value) -> in_box j (slice_shape ix (shape_of s)) ->
    kept h s (source_index ix (shape_of s) j) a p ->
  forall t i, valid h t -> in_box i (shape_of t) -> (forall b, In b (index_addrs t) -> untouched programs b) -> kept h t i a p ->
    exists x, get_elem h' t i = Ok x /\ assigned_at h programs a p x.
Proof.
  intros programs h sched h' rs F HI H s ix value j a p Hst Hj Hk t i Hv Hi Hu Ht.
  set (V := possible h programs). set (K := untouched programs). set (R := fun (_ : nat) (_ : Z) => True). set (W := assigned_at h programs).
  set (Q := fun ops => fun r => match r with Ok xs => reads_give (gives h V) ops xs | Raise _ => False end).
  assert (I0 : invariant h K V h) by (split; [split; [reflexivity|intros b q x _ E; now constructor]|reflexivity]).
  assert (S0 : Forall2 (fun (Q0 : res (list pyval) -> Prop) t => safe h K V R W Q0 t) (map Q programs) (map thread programs)).
  { assert (G : forall l, (forall ops, In ops l -> In ops programs) -> Forall (Forall (flow_op h)) l ->
      Forall2 (fun (Q0 : res (list pyval) -> Prop) t => safe h K V R W Q0 t) (map Q l) (map thread l)).
    { induction l as [|ops l IH]; intros Hl Fl; [constructor|]. inversion Fl as [|? ? Fo Fr]; subst. cbn [map]. constructor.
      - assert (St : forall o, In o ops -> stated programs o) by (intros o Ho; exists ops; split; [apply Hl; now left|exact Ho]).
        apply (thread_safe h K V R W False ops); [eapply Forall_impl; [apply flow_or|exact Fo]|..|exact (fun _ _ _ _ _ => I)].
        + intros o s0 b Ho. apply (HI o). now apply St.
        + intros s0 ix0 value0 Ho Hb. now apply (Hb s0 ix0 value0 (St _ Ho)).
        + intros s0 ix0 value0 j0 b q x Ho Hj0 Hk0 Hx. apply St in Ho. destruct value0 as [v|u]; cbn [supplies] in Hx.
          * destruct Hx as [Hx|[]]. split; [eapply p_listed; eassumption|]. exists s0, ix0, (SrcSeq v), j0. auto.
          * split; [|exists s0, ix0, (SrcSto u), j0; auto].
            destruct Hx as [(b' & q' & Hx & Hy)|[Hn ->]]; [eapply p_copied; eassumption|eapply p_unspecified; eassumption].
      - apply IH; [|exact Fr]. intros ops' Ho. apply Hl. now right. }
    now apply G. }
  assert (Hp : 0 <= p) by (now apply (kept_position h t i a p)).
  destruct (exec_safe h K V R W sched h (map thread programs) (map Q programs) h' (map Ret rs) I0 S0 H) as [X1 X2].
  assert (St : settled h K a p W h' (map (@Ret (list pyval)) rs)).
  { apply (exec_settled h K a p V R W Hp sched h (map thread programs) (map Q programs) h' (map Ret rs) I0 S0); [|exact H]. right.
    destruct Hst as (ops & Hops & Ho). exists (thread ops). split; [now apply in_map|]. rewrite Forall_forall in F.
    apply (thread_hits h K a p s ix value j ops (F ops Hops) Ho); [|exact Hj|exact Hk].
    intros b. apply (HI (Assign s ix value)); [exists ops; now split|destruct value; now left]. }
  assert (Y : exists x, hget h' a p = Ok x /\ W a p x).
  { destruct St as [St|(u & Hin & Hh)]; [exact St|]. exfalso. apply In_nth_error in Hin as (n & En).
    destruct (Forall2_nth _ _ _ X2 n u En) as (Q0 & EQ & HQ). rewrite nth_error_map in En, EQ.
    destruct (nth_error rs n) as [r|]; [|discriminate]. injection En as <-. destruct (nth_error programs n); [|discriminate]. injection EQ as <-.
    cbn [safe hits] in *. destruct r; [contradiction|exact HQ]. }
  destruct Y as (x & Ex & Wx). exists x. split; [|exact Wx].
  set (V' := fun b q y => hget h' b q = Ok y).
  assert (I1 : invariant h K V' h') by (split; [split; [apply X1|intros b q y _ E; exact E]|apply X1]).
  pose proof (run_safe h K V' R W _ _ h' I1 (read_safe h K V' R W t i Hv Hi Hu (fun _ _ _ => I))) as (y & Ey & Hy).
  rewrite run_get_elem in Ey; [|apply (C94_arrays_fit h t Hv); destruct t; auto; now apply box_positive with i|apply (Forall2_len _ _ _ Hi)].
  cbn [snd] in Ey. rewrite Ey. destruct Hy as [(b & q & Hb & Hy)|[Hn _]]; [|now apply Hn in Ht].
  destruct (kept_unique h t i a p b q Hi Hv Ht Hb) as [<- <-]. unfold V' in Hy. congruence.
Qed.
Print Assumptions C96_any_arrays_partial.

(** The hypotheses hold for the threads of [C100_case]: the element of the dense
    array at 0 is element 0 of the sparse one, and two threads assign to it. *)
Example C96_any_case :
  let programs := [[Assign sparse_view everything (SrcSeq (VSeq (map VInt [1; 2; 3; 4; 5; 6])))];
                   [Assign dense_view everything (SrcSto reversed_view)];
                   [Read sparse_view [5]; Read sparse_view [3]; Read dense_view [0]]] in
  Forall (Forall (flow_op shared_lists)) programs /\ indices_untouched programs
  /\ stated programs (Assign dense_view everything (SrcSto reversed_view))
  /\ in_box [0] (slice_shape everything (shape_of dense_view))
  /\ kept shared_lists dense_view (source_index everything (shape_of dense_view) [0]) 0%nat 0
  /\ kept shared_lists sparse_view [0] 0%nat 0.
Proof.
  cbv zeta. split; [apply C100_case|]. split; [apply C100_case|]. split; [eexists; split; [right; left; reflexivity|now left]|].
  split; [apply Forall2_cons; [change (0 <= 0 < 3); lia|constructor]|]. split; [apply (k_strided _ (Str [3] [1] (Buf 3 0 0 VNone)) [0])|].
  apply (k_sparse _ sparse_view (Buf 3 0 0 (VInt 0)) _ [0] 0 sparse_view_entries eq_refl); [cbn; lia|reflexivity].
Qed.

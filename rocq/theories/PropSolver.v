(** Properties C09-C16: extgcd, the Diophantine solver, solve_index. *)
From Verif Require Import Py SliceTools Basics Spec SliceFacts IndexFacts.
From Verif Require Import ExtgcdFacts DioFacts SolverFacts CloseFacts SolveFacts.

(** * C09 *)

(** The source's recursion equations hold for all integers, so the recursion
    terminates and the fuel of the model is immaterial. *)
Theorem C09_extgcd_terminates : forall a b,
  (a = 0 -> extgcd a b = (b, 0, 1)) /\
  (a <> 0 -> let '(g, x1, y1) := extgcd (b mod a) a in
             extgcd a b = (g, y1 - (b / a) * x1, x1)).
Proof.
  intros a b. split.
  - intros ->. apply extgcd_0.
  - intros Ha. destruct (extgcd (b mod a) a) as [[g x1] y1] eqn:E.
    rewrite extgcd_eq. replace (a =? 0) with false by lia. now rewrite E.
Qed.

Theorem C09_extgcd_bezout : forall a b g x y, extgcd a b = (g, x, y) ->
  a * x + b * y = g
  /\ (g | a) /\ (g | b) /\ Z.abs g = Z.gcd a b
  /\ (a <> 0 -> 0 < a * g)
  /\ (a <> 0 -> 2 * Z.abs g * Z.abs y <= Z.abs a).
Proof.
  intros a b g x y E. destruct (extgcd_spec a b g x y E) as (H1 & H2 & H3 & H4 & H5 & _ & H6 & _).
  auto 10.
Qed.
Example C09_ex : extgcd (-12) 18 = (-6, 2, 1).
Proof. reflexivity. Qed.

(** * C10, C11 *)

(** x0 + sum_j t[j] * zs[j], coordinate by coordinate. *)
Definition lattice_point (x0 t : list Z) (zs : list (list Z)) : list Z :=
  map (fun i => nth i x0 0 + zdot t (map (fun z => nth i z 0) zs)) (seq 0 (length x0)).

Theorem C10_diophantine_solutions : forall a c x0 zs t,
  a <> [] -> diophantine a c = Ok (Some (x0, zs)) -> length t = length zs ->
  length x0 = length a /\ Forall (fun z => length z = length a) zs
  /\ length zs = (length a - 1)%nat
  /\ zdot a (lattice_point x0 t zs) = c.
Proof.
  intros a c x0 zs t Hne H Ht.
  destruct (diophantine_sound a c x0 zs t Hne H Ht) as (H1 & H2 & H3 & H4).
  unfold lattice_point. rewrite H1. auto.
Qed.
Example C10_ex : exists x0 zs, diophantine [6; 10; -15] 7 = Ok (Some (x0, zs))
  /\ length zs = 2%nat.
Proof. vm_compute. eauto. Qed.

(** Without coefficients a "solution" is returned for every c. *)
Theorem C48_diophantine_empty_refuted : forall c,
  diophantine [] c = Ok (Some ([], [])) /\ (c <> 0 -> zdot [] (lattice_point [] [] []) <> c).
Proof.
  intros c. split.
  - unfold diophantine. cbn [init_diophantine bind sd_d]. unfold pymod, pydiv. cbn.
    rewrite Z.mod_1_r. reflexivity.
  - cbn. auto.
Qed.

Theorem C11_diophantine_complete : forall a c,
  a <> [] -> Forall (fun v => v <> 0) a ->
  exists r, diophantine a c = Ok r
    /\ (r = None <-> ~ exists x, length x = length a /\ zdot a x = c)
    /\ forall x0 zs, r = Some (x0, zs) ->
         forall x, length x = length a -> zdot a x = c ->
         exists! t, length t = length zs /\ x = lattice_point x0 t zs.
Proof.
  intros a c Hne Ha. destruct (diophantine_complete a c Hne Ha) as (r & Er & Hr).
  exists r. split; [exact Er|]. destruct r as [[x0 zs]|].
  - destruct (diophantine_sound a c x0 zs (repeat 0 (length zs)) Hne Er (repeat_length _ _))
      as (H1 & _ & _ & H4).
    split.
    + split; [discriminate|]. intros Hno. exfalso. apply Hno. eexists. split; [|exact H4].
      now rewrite map_length, seq_length.
    + intros x0' zs' E. injection E as <- <-. unfold lattice_point. rewrite H1. exact Hr.
  - split; [|discriminate]. split; [|reflexivity]. intros _ (x & Hx & Hd). exact (Hr x Hx Hd).
Qed.
Example C11_ex : diophantine [6; 10; -15] 7 <> Ok None /\ diophantine [6; -10; 4] 7 = Ok None.
Proof. vm_compute. split; [discriminate|reflexivity]. Qed.

(** * C12 *)
Theorem C12_solver_total : forall strides,
  strides <> [] -> Forall (fun a => a <> 0) strides ->
  (exists sd, init_diophantine strides None = Ok sd) /\
  (forall shape, length shape = length strides ->
     (exists sd, init_diophantine strides (Some shape) = Ok sd) /\
     (forall pos, exists r, solve_index pos shape strides = Ok r)).
Proof.
  intros st Hne Ha. split.
  - destruct st as [|a0 [|a1 r]]; [congruence|cbn; eauto|].
    now apply init_diophantine_none_ok.
  - intros sh Hl. split; [|intros pos; now apply solve_index_total].
    destruct st as [|a0 [|a1 r]]; [congruence|cbn; eauto|].
    destruct (init_diophantine_ok a0 (a1 :: r) sh Ha ltac:(congruence)) as (sd & s & E & _);
      [cbn [length] in *; lia|eauto].
Qed.
Example C12_ex : Forall (fun a => a <> 0) [6; -4; 9; 1].
Proof. repeat constructor; lia. Qed.

(** * C13 *)
Theorem C13_solve_index_sound : forall pos shape strides j,
  strides <> [] -> length shape = length strides ->
  solve_index pos shape strides = Ok (Some j) ->
  in_box j shape /\ zdot j strides = pos.
Proof. exact solve_index_sound. Qed.
Example C13_ex : solve_index 17 [2; 3; 4] [12; 4; 1] = Ok (Some [1; 1; 1])
  /\ solve_index (-5) [3; 2] [-4; 3] = Ok (Some [2; 1]).
Proof. vm_compute. split; reflexivity. Qed.

(** With no axes every position is "solved" by the empty index. *)
Theorem C48_solve_zero_dim_refuted : forall pos,
  solve_index pos [] [] = Ok (Some []) /\ (pos <> 0 -> zdot [] [] <> pos).
Proof.
  intros pos. split; [|cbn; auto]. unfold solve_index, solve_index_data. cbn.
  unfold pymod, pydiv. cbn. rewrite Z.mod_1_r. reflexivity.
Qed.

(** * C14, C15 *)
Theorem C14_solve_contiguous : forall sh, sh <> [] -> positive sh ->
  (forall i, in_box i sh -> solve_index (zdot i (c_strides sh)) sh (c_strides sh) = Ok (Some i))
  /\ (forall pos, ~ (0 <= pos < n_elements sh) -> solve_index pos sh (c_strides sh) = Ok None).
Proof.
  intros sh Hne Hp. rewrite c_strides_make, n_elements_product.
  pose proof (sliced_contiguous sh Hp) as Hs. split.
  - intros i Hi. now apply (solve_sliced_complete (product sh)).
  - intros pos Hpos. destruct (solve_sliced (product sh) sh (make_strides sh) pos Hs Hne) as (r & Er & Hr).
    rewrite Er. destruct r as [j|]; [|reflexivity]. exfalso.
    destruct (proj1 (Hr j) eq_refl) as [Hj Hd]. pose proof (contiguous_range sh j Hj). lia.
Qed.
Example C14_ex : positive [2; 3; 1; 4] /\ in_box [1; 2; 0; 3] [2; 3; 1; 4]
  /\ c_strides [2; 3; 1; 4] = [12; 4; 4; 1].
Proof. repeat split; repeat constructor; lia. Qed.

(** Shapes and strides of a contiguous array sliced any number of times. *)
Inductive view_of (sh : list Z) : list Z -> list Z -> Prop :=
| view_base : view_of sh sh (c_strides sh)
| view_slice sh1 st1 ix nix sh2 st2 off :
    view_of sh sh1 st1 -> positive sh1 -> ok_index ix sh1 ->
    normalize_index ix sh1 = Ok nix ->
    index_strided nix sh1 st1 0 = Ok (sh2, st2, off) ->
    view_of sh sh2 st2.

Lemma view_sliced sh sh1 st1 : positive sh -> view_of sh sh1 st1 -> sliced (product sh) sh1 st1.
Proof.
  intros Hp H. induction H as [|sh1 st1 ix nix sh2 st2 off Hv IH Hp1 Hok En Ei].
  - rewrite c_strides_make. now apply sliced_contiguous.
  - rewrite normalize_index_ok in En by assumption. injection En as <-.
    rewrite index_strided_ok in Ei; auto.
    + injection Ei as <- <- <-. apply sliced_slice; auto. now apply norm_items_normal.
    + now apply norm_items_normal.
    + symmetry. exact (sliced_length _ _ _ IH).
Qed.

Theorem C15_solve_views : forall sh sh1 st1 pos,
  positive sh -> view_of sh sh1 st1 -> sh1 <> [] ->
  exists r, solve_index pos sh1 st1 = Ok r
    /\ forall j, r = Some j <-> in_box j sh1 /\ zdot j st1 = pos.
Proof.
  intros sh sh1 st1 pos Hp Hv Hne. apply (solve_sliced (product sh)); [|assumption].
  now apply view_sliced.
Qed.

(** One slice, with the positions of the elements of the sliced array spelled
    out: the solver finds the slice index of the element at position [pos] of the
    contiguous array, if and only if that element belongs to the slice. *)
Theorem C15_solve_slices : forall sh ix,
  positive sh -> ok_index ix sh -> slice_shape ix sh <> [] ->
  exists nix st off,
    normalize_index ix sh = Ok nix
    /\ index_strided nix sh (c_strides sh) 0 = Ok (slice_shape ix sh, st, off)
    /\ forall pos, exists r, solve_index (pos - off) (slice_shape ix sh) st = Ok r
         /\ forall j, r = Some j <->
              in_box j (slice_shape ix sh) /\ zdot (source_index ix sh j) (c_strides sh) = pos.
Proof.
  intros sh ix Hp Hok Hne.
  assert (Hl : length (c_strides sh) = length sh).
  { clear. induction sh; cbn; congruence. }
  destruct (index_strided_full ix sh (c_strides sh) 0 Hp Hok Hl) as (nix & st & off & En & Ei & _ & Hj).
  exists nix, st, off. split; [exact En|]. split; [exact Ei|]. intros pos.
  destruct (C15_solve_views sh (slice_shape ix sh) st (pos - off) Hp) as (r & Er & Hr); [|assumption|].
  { eapply view_slice; eauto. constructor. }
  exists r. split; [exact Er|]. intros j. rewrite Hr. split; intros [Hb Hd]; split; auto;
    destruct (Hj j Hb) as [_ E]; lia.
Qed.
Example C15_ex :
  let ix := XTuple [ISlice (Sl None None (Some (-2))); IInt 1; ISlice (Sl (Some 1) None (Some 3))] in
  ok_index ix [5; 2; 6] /\ slice_shape ix [5; 2; 6] = [3; 2]
  /\ solve_index (55 - 55) [3; 2] [-24; 3] = Ok (Some [0; 0])
  /\ solve_index (28 - 55) [3; 2] [-24; 3] = Ok None
  /\ solve_index (34 - 55) [3; 2] [-24; 3] = Ok (Some [1; 1]).
Proof.
  cbn zeta. split; [|vm_compute; auto].
  split; [repeat constructor; discriminate|right; cbn; lia].
Qed.

(** * C16 *)
Theorem C16_solve_index_complete_refuted : exists pos shape strides j,
  length shape = length strides /\ Forall (fun a => 0 < a) strides
  /\ in_box j shape /\ zdot j strides = pos
  /\ solve_index pos shape strides = Ok None.
Proof.
  exists 0, [2; 2], [1; 2], [0; 0]. repeat split; repeat constructor; lia.
Qed.

Print Assumptions C09_extgcd_terminates.
Print Assumptions C09_extgcd_bezout.
Print Assumptions C10_diophantine_solutions.
Print Assumptions C48_diophantine_empty_refuted.
Print Assumptions C11_diophantine_complete.
Print Assumptions C12_solver_total.
Print Assumptions C13_solve_index_sound.
Print Assumptions C48_solve_zero_dim_refuted.
Print Assumptions C14_solve_contiguous.
Print Assumptions C15_solve_views.
Print Assumptions C15_solve_slices.
Print Assumptions C16_solve_index_complete_refuted.

(** Cases of C115 and C119 in which the other threads leave the arrays alone. *)
From Verif Require Import Py SliceTools Basics Storage Spec SliceFacts IndexFacts CompressFacts ReduceFacts SolverFacts
  SolveFacts Repr ReprFacts ViewFacts BuildFacts SparseFacts ConvFacts FromFacts MapFacts DMFacts ReadFacts WriteFacts RefineFacts EqFacts
  AliasFacts PropRead PropWrite PropEq PropLoop Threads ThreadFacts PropThreads PropRaces PropFlow Copies PropCopies PropSnap Iterate PropMoment Same PropSame.
From Coq Require Import List.
Import ListNotations.

(** Two COO arrays with the same elements are compared while a third array is assigned
    to. *)
Definition third : storage := SStrided (Str [2] [1] (Buf 2 0 4 VNone)).
Definition three_lists : heap := coo_lists ++ [map VInt [1; 2]].
Lemma coo_both : entries three_lists left_coo [([0], VInt 4); ([2], VInt 5)] /\ entries three_lists right_coo [([0], VInt 4); ([2], VInt 5)].
Proof.
  split; (split; [repeat constructor; lia|]; split; [discriminate|]; split; [split; [repeat constructor; cbn; lia|repeat constructor; cbn; lia]|];
      split; [eexists; repeat split; try reflexivity; cbn; lia|]; split; [reflexivity|]; split; [reflexivity|];
      split; [eexists; repeat split; try reflexivity; cbn; lia|]; split; [discriminate|reflexivity]).
Qed.
Definition third_writes : list op := [Assign third everything (SrcSeq (VSeq [VInt 8; VInt 9]))].
Lemma third_leaves l : ~ In 4%nat l -> leaves l (thread third_writes).
Proof. intros H. apply leaves_thread. cbn. intros a [<-|[]]. exact H. Qed.

Example C115_still_case :
  valid three_lists left_coo /\ positive (shape_of left_coo) /\ valid three_lists right_coo /\ positive (shape_of right_coo)
  /\ leaves (addrs left_coo ++ addrs right_coo) (thread third_writes)
  /\ exists sched h', exec sched three_lists [ends_with (equal_t left_coo right_coo) one_or_zero; thread third_writes]
       = (h', [Ret (Ok (one_or_zero true)); Ret (Ok [])])
     /\ nth_error h' 4 = Some (map VInt [8; 9]).
Proof.
  split; [exact (ex_intro _ _ (repr_entries _ _ _ (proj1 coo_both)))|]. split; [repeat constructor; lia|].
  split; [exact (ex_intro _ _ (repr_entries _ _ _ (proj2 coo_both)))|]. split; [repeat constructor; lia|].
  split; [apply third_leaves; cbn; intuition discriminate|].
  eexists ([0; 0; 1; 0; 0; 1] ++ repeat 0 20 ++ repeat 1 20)%nat, _. split; [vm_compute; reflexivity|]. reflexivity.
Qed.

(** The first of them is converted to FlatCOO meanwhile. *)
Example C115_conversion_case :
  valid three_lists left_coo /\ shape_of left_coo <> [] /\ leaves (index_addrs left_coo) (thread third_writes) /\ class_rank CFlatCOO (shape_of left_coo)
  /\ exists sched h' xs s' h'', exec sched three_lists [ends_with (copy_t left_coo) (fun xs => xs); thread third_writes] = (h', [Ret (Ok xs); Ret (Ok [])])
     /\ copy_of CFlatCOO left_coo (VInt 0) xs h' = Ok (s', h'') /\ map (get_elem h'' s') (cart [3]) = map Ok (map VInt [4; 0; 5]).
Proof.
  split; [exact (ex_intro _ _ (repr_entries _ _ _ (proj1 coo_both)))|]. split; [discriminate|].
  split; [apply third_leaves; cbn; intuition discriminate|]. split; [first [exact I|reflexivity|discriminate]|].
  eexists ([0; 0; 1; 0; 0; 1] ++ repeat 0 40 ++ repeat 1 20)%nat, _, _, _, _.
  split; [vm_compute; reflexivity|]. split; [vm_compute; reflexivity|]. vm_compute. reflexivity.
Qed.

Example C119_still_case :
  Forall (leaves (addrs left_coo)) [thread third_writes] /\ Forall (leaves (addrs right_coo)) [thread third_writes]
  /\ storage_eq three_lists left_coo right_coo = Ok true
  /\ exists sched n, moment sched three_lists [thread third_writes] n <> three_lists
     /\ storage_eq_at (fun k => moment sched three_lists [thread third_writes] (n * k)) left_coo right_coo = Ok true.
Proof.
  split; [constructor; [apply third_leaves; cbn; intuition discriminate|constructor]|].
  split; [constructor; [apply third_leaves; cbn; intuition discriminate|constructor]|]. split; [vm_compute; reflexivity|].
  exists (repeat 0 8)%nat, 8%nat. split; [vm_compute; discriminate|vm_compute; reflexivity].
Qed.

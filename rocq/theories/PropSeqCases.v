(** Cases of C109 with all hypotheses. *)
From Verif Require Import Py SliceTools Basics Storage Spec Repr PropRead PropEnum PropSeq PropFlow PropCases.
From Verif Require Import Iterate.
From Coq Require Import List.
Import ListNotations.

(** A CSR array, a Buffer of three items, and a COO array with one axis. *)
Example C109_hypotheses_case :
  (valid demo_heap a_csr /\ (forall b, a_csr <> SBuffer b) /\ positive (shape_of a_csr) /\ length (shape_of a_csr) = 2%nat /\ iterable demo_heap a_csr)
  /\ (valid demo_heap a_buffer /\ ~ has_element demo_heap a_buffer (VInt 77))
  /\ (valid shared_lists sparse_view /\ positive (shape_of sparse_view) /\ length (shape_of sparse_view) = 1%nat
      /\ has_element shared_lists sparse_view (VInt 20) /\ ~ has_element shared_lists sparse_view (VInt 77)).
Proof.
  split; [|split].
  - split; [exact v_csr|]. split; [discriminate|]. split; [repeat constructor; lia|]. split; [reflexivity|]. unfold iterable. cbn. tauto.
  - split; [exact v_buffer|]. intros (k & Hk & E). cbn in Hk.
    assert (C : k = 0 \/ k = 1 \/ k = 2) by lia. destruct C as [->|[->| ->]]; vm_compute in E; discriminate.
  - split; [exact sparse_view_valid|]. split; [repeat constructor; lia|]. split; [reflexivity|].
    split; [exists 2; split; [cbn; lia|vm_compute; reflexivity]|]. intros (k & Hk & E). cbn in Hk.
    assert (C : k = 0 \/ k = 1 \/ k = 2 \/ k = 3 \/ k = 4 \/ k = 5) by lia.
    destruct C as [->|[->|[->|[->|[->| ->]]]]]; vm_compute in E; discriminate.
Qed.

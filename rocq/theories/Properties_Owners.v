(** C70: what is handed out stays there. *)
From Verif Require Import Prelude Owners OwnersSpec OwnersProofs.

(** In no program that the compiler accepts is memory read or released after it was freed, as
    long as the texts of shared keys that the iterator of a document handed out are read only
    while somebody has the keys.  (Missing: that last condition, which the compiler does not
    check.) *)
Theorem C70_no_memory_error_partial : forall st c, reached st -> accepted st c ->
  (forall t, reads_shared st c t -> keys_held st t) -> exists st', ostep st c = Ret st'.
Proof. exact no_memory_error. Qed.
Print Assumptions C70_no_memory_error_partial.

(** The condition is needed: without it such a text is read from freed memory every time. *)
Theorem C70_dangles_exactly : forall st c t, reached st -> accepted st c ->
  reads_shared st c t -> ~ keys_held st t -> ostep st c = UB.
Proof. exact dangles_exactly. Qed.
Print Assumptions C70_dangles_exactly.

(** Keys and values of a mutable dict can be read as long as they are borrowed. *)
Theorem C70_mutable : forall st r m tg, reached st ->
  at_opt (o_refs st) r = Some (LMut m, tg) -> lends st (LMut m) -> ostep st (KRead r) = Ret st.
Proof. exact from_mutable. Qed.
Print Assumptions C70_mutable.

(** Bytes and shared keys are freed when their last owner is gone, and not before. *)
Theorem C70_freed_exactly : forall st, reached st ->
  (forall t, (t < length (o_tabs st))%nat -> (nth_error (o_tabs st) t = Some O <-> ~ keys_held st t)) /\
  (forall b, (b < length (o_bufs st))%nat -> (nth_error (o_bufs st) b = Some O <-> ~ bytes_held st b)).
Proof. exact freed_exactly. Qed.
Print Assumptions C70_freed_exactly.

Fixpoint orun (st : own) (l : list ocall) : outcome own :=
  match l with [] => Ret st | c :: r => st' <- ostep st c ;; orun st' r end.
(** A scope is made and its root taken; the root's dict is iterated, and the iterator dropped. *)
Definition looked : list ocall :=
  [KNewBytes; KNewKeys; KNewScope 0 (Some 0%nat); KRoot 0; KIter 1 (Some 0%nat); KNextShared 0; KDropIter 0].
Definition state_of (l : list ocall) : own := match orun own_new l with Ret st => st | _ => own_new end.
Ltac there R := match type of R with reached ?s => let v := eval vm_compute in s in change (reached v) in R end.
Tactic Notation "call" constr(c) ident(R) := eapply (reached_step _ c) in R; [|idtac|vm_compute; reflexivity]; [there R|].
Lemma looked_reached : reached (state_of looked).
Proof.
  pose proof reached_new as R. there R.
  call KNewBytes R. 2:{ vm_compute; trivial. }
  call KNewKeys R. 2:{ vm_compute; trivial. }
  call (KNewScope 0 (Some 0%nat)) R.
  2:{ split; [eexists; reflexivity|]. split; [intros [|i] t H; discriminate|eexists; reflexivity]. }
  call (KRoot 0) R. 2:{ eexists; split; [reflexivity|cbn; auto]. }
  call (KIter 1 (Some 0%nat)) R. 2:{ split; [eexists; reflexivity|eexists; split; [reflexivity|cbn; auto]]. }
  call (KNextShared 0) R. 2:{ eexists; reflexivity. }
  call (KDropIter 0) R. 2:{ eexists; reflexivity. }
  exact R.
Qed.
(** While the scope lives the key can be read. *)
Example C70_example : reached (state_of looked) /\ accepted (state_of looked) (KRead 0) /\
  reads_shared (state_of looked) (KRead 0) 0 /\ keys_held (state_of looked) 0 /\
  ostep (state_of looked) (KRead 0) = Ret (state_of looked).
Proof.
  split; [exact looked_reached|]. split; [exists (LBuf 1), (InTab 0); split; [reflexivity|eexists; reflexivity]|].
  split; [exists 0%nat, 1%nat; split; reflexivity|]. split; [|reflexivity].
  apply (held_by_scope _ _ 0 (mk_oscope 1 0 (Some 0%nat))); [reflexivity|cbn; auto|reflexivity].
Qed.

(** Violated: the scope is dropped while the root, which the key was borrowed from, is still
    there; reading the key reads freed memory. *)
Theorem C70_refuted : exists st c, reached st /\ accepted st c /\ ostep st c = UB.
Proof.
  exists (state_of (looked ++ [KDropScope 0])), (KRead 0). split; [|split].
  - pose proof looked_reached as R. there R.
    call (KDropScope 0) R. 2:{ eexists; split; [reflexivity|cbn; auto]. }
    exact R.
  - exists (LBuf 1), (InTab 0). split; [reflexivity|eexists; reflexivity].
  - vm_compute. reflexivity.
Qed.
Print Assumptions C70_refuted.

(** The value that came with the key is still there, in both cases. *)
Example C70_value : ostep (state_of (looked ++ [KDropScope 0])) (KRead 1) = Ret (state_of (looked ++ [KDropScope 0])).
Proof. vm_compute. reflexivity. Qed.
(** A mutable dict keeps the keys itself. *)
Example C70_mutable_example :
  let st := state_of [KNewKeys; KNewMut (Some 0%nat); KIterMut 0; KNextShared 0; KDropIter 0] in
  at_opt (o_refs st) 0 = Some (LMut 0, InTab 0) /\ lends st (LMut 0) /\ ostep st (KRead 0) = Ret st.
Proof. split; [reflexivity|]. split; [eexists; reflexivity|vm_compute; reflexivity]. Qed.

(** C65: scopes in several threads. *)
From Verif Require Import Prelude SharedKeys Decode Scopes ScopeSpec ScopeProofs Threads ThreadsSpec ThreadsProofs.

(** Whatever the threads do and however their steps interleave, the calls and answers are those
    of an execution in which every call takes effect at once, between its beginning and its
    end. *)
Theorem C65_linearizable : forall dbg tr c, crun dbg c_init tr c -> exists a, arun dbg a_init tr a.
Proof. exact linearizable. Qed.
Print Assumptions C65_linearizable.

(** The memory of such an execution is always one that a single thread could have made (C40 to
    C43 are about these). *)
Theorem C65_histories : forall dbg tr a, arun dbg a_init tr a -> exists reg, reach dbg allocated (world_of (a_mem a)) reg.
Proof. exact arun_reach. Qed.
Print Assumptions C65_histories.

(** No deadlock: while a call is going on, some call can go on or answer.  (The data given to
    new scopes is not in use otherwise and looking for its root returns or panics; an [Arc] that
    is copied or dropped exists.) *)
Theorem C65_no_deadlock : forall dbg tr c, crun dbg c_init tr c ->
  (forall t o, c_th c t = TStart o \/ c_th c t = TLocked o ->
     match o with
     | ONew start data _ => apart_or_same (world_of (c_mem c)) start data /\
         (root_or_none dbg start data = Panic \/ exists r, root_or_none dbg start data = Ret r)
     | OClone id | ODrop id => owned (c_mem c) (c_lock c) (c_th c) id
     | _ => True
     end) ->
  forall t, c_th c t <> TIdle -> exists e c', step dbg c e c' /\ (e = None \/ exists t' r, e = Some (ERes t' r)).
Proof. exact no_deadlock. Qed.
Print Assumptions C65_no_deadlock.

(** A thread that has the lock gives it back within a number of its own steps that the other
    threads cannot raise. *)
Theorem C65_lock_bounded : forall dbg tr c e c' t, crun dbg c_init tr c -> step dbg c e c' -> has_lock (c_lock c) t ->
  (c_th c' t = c_th c t /\ m_map (c_mem c') = m_map (c_mem c) /\ has_lock (c_lock c') t) \/
  (steps_left (c_mem c') (c_th c' t) < steps_left (c_mem c) (c_th c t))%nat.
Proof. exact holder_step. Qed.
Print Assumptions C65_lock_bounded.

(** An execution: thread 0 makes a scope of two bytes at 64 and then another of the same data;
    while its data is compared, thread 1 drops the first scope, which thread 2 was looking for
    all the time. *)
Tactic Notation "ev" uconstr(r) := match goal with R : crun _ _ _ _ |- _ => eapply cr_event in R; [|eapply r; reflexivity] end.
Tactic Notation "tau" uconstr(r) := match goal with R : crun _ _ _ _ |- _ => eapply cr_tau in R; [|eapply r; try reflexivity] end.
Definition two : list Z := [0; 5].
Definition two_root : option val := match root_or_none true 64 two with Ret r => r | _ => None end.
Example C65_run : exists c, crun true c_init
  [EInv 0 (ONew 64 two None); ERes 0 (RNew (Ret 0%nat)); EInv 0 (ONew 64 two None); EInv 1 (ODrop 0); EInv 2 (OFind 65);
   ERes 1 (RUnit (Ret tt)); ERes 0 (RNew (Ret 1%nat)); ERes 2 (RFind (Ret (Some 1%nat)))] c /\
  upgrade (world_of (c_mem c)) 0 = None /\ c_lock c = LFree.
Proof.
  pose proof (cr_nil true (mk_c mem_new LFree (fun _ => TIdle))) as R.
  ev (s_inv true _ _ _ 0 (ONew 64 two None)).
  tau (s_lock_new true _ _ 0); [|intros [|id] s H; discriminate].
  tau (s_new_root true _ _ _ 0 64 two None two_root).
  tau (s_insert true _ _ _ 0 64 two None two_root []).
  tau (s_unlock true _ _ _ 0).
  ev (s_res true _ _ _ 0).
  ev (s_inv true _ _ _ 0 (ONew 64 two None)).
  ev (s_inv true _ _ _ 1 (ODrop 0)).
  tau (s_lock_new true _ _ 0); [|intros [|[|id]] s H; try discriminate; injection H as <-; right; right; split; reflexivity].
  tau (s_new_root true _ _ _ 0 64 two None two_root).
  tau (s_cmp_alive true _ _ _ 0).
  ev (s_inv true _ _ _ 2 (OFind 65)).
  tau (s_drop true _ _ _ 1); [|do 2 eexists; split; [reflexivity|vm_compute; reflexivity]].
  tau (s_cmp_done true _ _ _ 0).
  ev (s_res true _ _ _ 1).
  tau (s_insert true _ _ _ 0).
  tau (s_unlock true _ _ _ 0).
  tau (s_lock_read true _ _ 2).
  tau (s_find_entry true _ _ _ 2).
  tau (s_find true _ _ _ 2).
  ev (s_res true _ _ _ 0).
  tau (s_unlock true _ _ _ 2).
  ev (s_res true _ _ _ 2).
  eexists. split; [exact R|]. split; reflexivity.
Qed.
(** A state with the lock taken and a thread waiting for it. *)
Example C65_waiting : exists tr c, crun true c_init tr c /\ has_lock (c_lock c) 0 /\ c_th c 2%nat <> TIdle /\
  (forall t o, c_th c t = TStart o \/ c_th c t = TLocked o ->
     match o with
     | ONew start data _ => apart_or_same (world_of (c_mem c)) start data /\
         (root_or_none true start data = Panic \/ exists r, root_or_none true start data = Ret r)
     | OClone id | ODrop id => owned (c_mem c) (c_lock c) (c_th c) id
     | _ => True
     end).
Proof.
  pose proof (cr_nil true (mk_c mem_new LFree (fun _ => TIdle))) as R.
  ev (s_inv true _ _ _ 0 (ONew 64 two None)).
  tau (s_lock_new true _ _ 0); [|intros [|id] s H; discriminate].
  ev (s_inv true _ _ _ 2 (OFind 65)).
  do 2 eexists. split; [exact R|]. split; [left; reflexivity|]. split; [discriminate|].
  intros t o H. cbn [c_th] in H. unfold upd in H. destruct (Nat.eqb t 2); [destruct H as [H|H]; [injection H as <-; exact I|discriminate]|].
  destruct (Nat.eqb t 0); [|destruct H; discriminate]. destruct H as [H|H]; [discriminate|]. injection H as <-.
  split; [intros [|id] s H; discriminate|]. right. exists two_root. vm_compute. reflexivity.
Qed.

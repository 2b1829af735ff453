(** Which programs the compiler accepts, and when something is still needed. *)
From Verif Require Import Prelude Owners.

(** A lender that has not been dropped. *)
Definition lends (st : own) (l : lender) : Prop :=
  match l with
  | LBuf a => exists b, at_opt (o_owners st) a = Some b
  | LMut m => exists t, at_opt (o_muts st) m = Some t
  end.
(** No iterator borrows from it. *)
Definition free_of_iters (st : own) (l : lender) : Prop :=
  forall i t, at_opt (o_iters st) i <> Some (l, t).
Definition scope_lives (st : own) (s : nat) : Prop :=
  exists sc, nth_error (o_scopes st) s = Some sc /\ (0 < os_count sc)%nat.
Definition handle_or_none (st : own) (h : option nat) : Prop :=
  match h with Some h => exists t, at_opt (o_handles st) h = Some t | None => True end.

(** The rules of ownership and borrowing: what is used exists, a thing that is borrowed by an
    iterator is not dropped, moved or changed, and a reference is read only as long as what it
    was borrowed from. *)
Definition accepted (st : own) (c : ocall) : Prop :=
  match c with
  | KNewBytes | KNewKeys => True
  | KCloneBytes a => lends st (LBuf a)
  | KDropBytes a => lends st (LBuf a) /\ free_of_iters st (LBuf a)
  | KCloneKeys h | KDropKeys h => handle_or_none st (Some h)
  | KNewScope a h => lends st (LBuf a) /\ free_of_iters st (LBuf a) /\ handle_or_none st h
  | KCloneScope s | KDropScope s | KScopeKeys s | KRoot s => scope_lives st s
  | KNewMut h => handle_or_none st h
  | KMutFrom None => True
  | KMutFrom (Some s) => scope_lives st s
  | KCloneMut m => lends st (LMut m)
  | KChangeMut m | KDropMut m => lends st (LMut m) /\ free_of_iters st (LMut m)
  | KIter a None => lends st (LBuf a)
  | KIter a (Some s) => lends st (LBuf a) /\ scope_lives st s
  | KIterMut m => lends st (LMut m)
  | KNextText i | KNextShared i | KDropIter i => exists it, at_opt (o_iters st) i = Some it
  | KRead r => exists l t, at_opt (o_refs st) r = Some (l, t) /\ lends st l
  end.

(** The states a program can get into. *)
Inductive reached : own -> Prop :=
| reached_new : reached own_new
| reached_step : forall st c st', reached st -> accepted st c -> ostep st c = Ret st' -> reached st'.

(** Somebody still has the shared keys [t]. *)
Inductive keys_held (st : own) (t : nat) : Prop :=
| held_by_scope : forall s sc, nth_error (o_scopes st) s = Some sc -> (0 < os_count sc)%nat -> os_tab sc = Some t -> keys_held st t
| held_by_handle : forall h, at_opt (o_handles st) h = Some t -> keys_held st t
| held_by_mut : forall m, at_opt (o_muts st) m = Some (Some t) -> keys_held st t
| held_by_iter : forall i l, at_opt (o_iters st) i = Some (l, Some t) -> keys_held st t.
(** Somebody still has the bytes [b]. *)
Inductive bytes_held (st : own) (b : nat) : Prop :=
| held_in_scope : forall s sc, nth_error (o_scopes st) s = Some sc -> (0 < os_count sc)%nat -> os_buf sc = b -> bytes_held st b
| held_by_owner : forall a, at_opt (o_owners st) a = Some b -> bytes_held st b.

(** Reading the text of a shared key that came from a document. *)
Definition reads_shared (st : own) (c : ocall) (t : nat) : Prop :=
  exists r a, c = KRead r /\ at_opt (o_refs st) r = Some (LBuf a, InTab t).

(** Specification of the scope calls in several threads: every call takes effect in one step,
    some time between its beginning and its end. *)
From Verif Require Import Prelude SharedKeys Decode Scopes ScopeSpec Threads.

(** A whole call at once, as in Scopes.v. *)
Definition apply (dbg : bool) (m : mem) (o : op) : mem * res :=
  match o with
  | ONew start data sk =>
      let '(r, w) := scope_new dbg (world_of m) start data sk in
      (mk_mem (m_cells m ++ map (fun s => (s, 1%nat)) (skipn (length (m_cells m)) (w_scopes w))) (w_map w) (w_poisoned w), RNew r)
  | ORemove id =>
      let '(r, w) := scope_remove (world_of m) id in (mk_mem (m_cells m) (w_map w) (w_poisoned w), RUnit r)
  | OFind p =>
      match scope_containing (world_of m) p with
      | Ret (Some id) => (inc m id, RFind (Ret (Some id)))
      | r => (m, RFind r)
      end
  | OClone id => (inc m id, RUnit (Ret tt))
  | ODrop id => (dec m id, RUnit (Ret tt))
  end.

Inductive pending := PIdle | PCalled (o : op) | PDone (r : res).
Record astate := mk_a { a_mem : mem; a_th : nat -> pending }.
Definition a_init : astate := mk_a mem_new (fun _ => PIdle).
Definition aupd (th : nat -> pending) (t : nat) (s : pending) : nat -> pending := fun i => if Nat.eqb i t then s else th i.

Inductive astep (dbg : bool) : astate -> option event -> astate -> Prop :=
| a_call m th t o : th t = PIdle -> astep dbg (mk_a m th) (Some (EInv t o)) (mk_a m (aupd th t (PCalled o)))
| a_effect m th t o :
    th t = PCalled o ->
    (forall start data sk, o = ONew start data sk -> allocated (world_of m) start data) ->
    astep dbg (mk_a m th) None (mk_a (fst (apply dbg m o)) (aupd th t (PDone (snd (apply dbg m o)))))
| a_answer m th t r : th t = PDone r -> astep dbg (mk_a m th) (Some (ERes t r)) (mk_a m (aupd th t PIdle)).
Inductive arun (dbg : bool) : astate -> list event -> astate -> Prop :=
| ar_nil a : arun dbg a [] a
| ar_tau a1 tr a2 a3 : arun dbg a1 tr a2 -> astep dbg a2 None a3 -> arun dbg a1 tr a3
| ar_event a1 tr a2 e a3 : arun dbg a1 tr a2 -> astep dbg a2 (Some e) a3 -> arun dbg a1 (tr ++ [e]) a3.

(** The thread has the lock, and how many steps it takes at most until it has given it back. *)
Definition has_lock (l : lock) (t : nat) : Prop := l = LWrite t \/ exists rs, l = LRead rs /\ In t rs.
Definition steps_left (m : mem) (s : tstate) : nat :=
  match s with
  | TLocked (ONew _ _ _) => 2 * length (m_map m) + 4
  | TLocked _ => 4
  | TComparing _ _ _ _ todo _ => 2 * length todo + 3
  | THolding _ _ _ _ _ todo _ => 2 * length todo + 4
  | TGot _ _ => 3
  | TUnlock _ | TPoison _ => 2
  | _ => 1
  end.

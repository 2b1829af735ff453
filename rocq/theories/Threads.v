(** Model of src/scope.rs as it runs in several threads: the calls in small steps, with the lock
    around the global map and the counters of the [Arc]s. *)
From Verif Require Import Prelude Utf8 Float SharedKeys Decode Encodable Encoder Scopes.

(* ---------- Memory ---------- *)

(** What the threads share: the scopes that were ever made, each with the number of [Arc]s to it
    (scope.rs:10-15; the scope is alive while there are any), and the global map with its poison
    flag (scope.rs:155-158). *)
Record mem := mk_mem { m_cells : list (scope * nat); m_map : list rng; m_poisoned : bool }.
Definition mem_new : mem := mk_mem [] [] false.

(** The same memory as Scopes.v sees it. *)
Definition cell_scope (c : scope * nat) : scope :=
  let s := fst c in mk_scope (sc_start s) (sc_data s) (sc_sk s) (sc_root s) (0 <? Z.of_nat (snd c)).
Definition world_of (m : mem) : world := mk_world (map cell_scope (m_cells m)) (m_map m) (m_poisoned m).

Fixpoint at_cell (f : nat -> nat) (l : list (scope * nat)) (id : nat) : list (scope * nat) :=
  match l, id with
  | [], _ => []
  | (s, n) :: r, O => (s, f n) :: r
  | c :: r, S i => c :: at_cell f r i
  end.
(** [Arc::clone] and a successful [Weak::upgrade]: nothing happens to a scope that is gone. *)
Definition inc (m : mem) (id : nat) : mem :=
  mk_mem (at_cell (fun n => match n with O => O | S _ => S n end) (m_cells m) id) (m_map m) (m_poisoned m).
(** Dropping an [Arc]. *)
Definition dec (m : mem) (id : nat) : mem := mk_mem (at_cell pred (m_cells m) id) (m_map m) (m_poisoned m).
Definition set_map (m : mem) (r : list rng) : mem := mk_mem (m_cells m) r (m_poisoned m).
Definition set_poisoned (m : mem) : mem := mk_mem (m_cells m) (m_map m) true.
Definition add_cell (m : mem) (s : scope) : mem := mk_mem (m_cells m ++ [(s, 1%nat)]) (m_map m) (m_poisoned m).

(* ---------- Calls ---------- *)

(** The calls: [Scope::new], [remove], [containing] (and with it [find_shared_keys]), and
    copying and dropping an [Arc<Scope>]. *)
Inductive op :=
| ONew (start : Z) (data : list Z) (sk : option shared_keys)
| ORemove (id : nat)
| OFind (p : Z)
| OClone (id : nat)
| ODrop (id : nat).
Inductive res :=
| RNew (o : outcome nat)
| RUnit (o : outcome unit)
| RFind (o : outcome (option nat)).
Definition panic_of (o : op) : res :=
  match o with ONew _ _ _ => RNew Panic | OFind _ => RFind Panic | _ => RUnit Panic end.

(* ---------- Threads ---------- *)

Inductive lock := LFree | LRead (l : list nat) | LWrite (t : nat).

(** Where a thread is in its call. *)
Inductive tstate :=
| TIdle
| TStart (o : op)
| TLocked (o : op)
| TComparing (start : Z) (data : list Z) (sk : option shared_keys) (root : option val)
    (todo : list nat) (acc : list (nat * bool))
| THolding (start : Z) (data : list Z) (sk : option shared_keys) (root : option val)
    (id : nat) (todo : list nat) (acc : list (nat * bool))
| TGot (p : Z) (id : nat)
| TUnlock (r : res)
| TPoison (r : res)
| TDone (r : res).

Record cstate := mk_c { c_mem : mem; c_lock : lock; c_th : nat -> tstate }.
Definition c_init : cstate := mk_c mem_new LFree (fun _ => TIdle).
Definition upd (th : nat -> tstate) (t : nat) (s : tstate) : nat -> tstate :=
  fun i => if Nat.eqb i t then s else th i.

Definition alive_cell (m : mem) (id : nat) : option scope := upgrade (world_of m) id.
Definition unlock (l : lock) (t : nat) : lock :=
  match l with
  | LRead l => match remove Nat.eq_dec t l with [] => LFree | l' => LRead l' end
  | _ => LFree
  end.
Definition same_of (acc : list (nat * bool)) (id : nat) : bool :=
  existsb (fun a => Nat.eqb (fst a) id && snd a) acc.

(** The scope that the thread with the write lock holds for a comparison. *)
Definition held1 (s : tstate) : option nat := match s with THolding _ _ _ _ id _ _ => Some id | _ => None end.
Definition held (l : lock) (th : nat -> tstate) : option nat := match l with LWrite t => held1 (th t) | _ => None end.
(** Somebody has an [Arc] of the scope that can be copied or dropped: what the ownership rules
    of Rust ask of [Arc::clone] and [drop]. *)
Definition owned (m : mem) (l : lock) (th : nat -> tstate) (id : nat) : Prop :=
  exists s n, nth_error (m_cells m) id = Some (s, n) /\
    (match held l th with Some i => if Nat.eqb i id then 1 else 0 | None => 0 end < n)%nat.

(** The allocator: the data given to [Scope::new] does not overlap data that is in use, except
    that it can be the very data of another scope. *)
Definition apart_or_same (w : world) (start : Z) (data : list Z) : Prop :=
  forall id s, upgrade w id = Some s ->
    sc_end s <= start \/ start + lenZ data <= sc_start s \/ (sc_start s = start /\ sc_data s = data).

Inductive event := EInv (t : nat) (o : op) | ERes (t : nat) (r : res).

(** One step of thread [t]; [Some] for the beginning and the end of a call. *)
Inductive step (dbg : bool) : cstate -> option event -> cstate -> Prop :=
| s_inv m l th t o : th t = TIdle -> step dbg (mk_c m l th) (Some (EInv t o)) (mk_c m l (upd th t (TStart o)))
| s_res m l th t r : th t = TDone r -> step dbg (mk_c m l th) (Some (ERes t r)) (mk_c m l (upd th t TIdle))
(* [Arc] needs no lock *)
| s_clone m l th t id : th t = TStart (OClone id) -> owned m l th id ->
    step dbg (mk_c m l th) None (mk_c (inc m id) l (upd th t (TDone (RUnit (Ret tt)))))
| s_drop m l th t id : th t = TStart (ODrop id) -> owned m l th id ->
    step dbg (mk_c m l th) None (mk_c (dec m id) l (upd th t (TDone (RUnit (Ret tt)))))
(* SCOPE_MAP.write(), scope.rs:65 and :77; SCOPE_MAP.read(), :106 *)
| s_lock_new m th t start data sk : th t = TStart (ONew start data sk) -> apart_or_same (world_of m) start data ->
    step dbg (mk_c m LFree th) None (mk_c m (LWrite t) (upd th t (TLocked (ONew start data sk))))
| s_lock_remove m th t id : th t = TStart (ORemove id) ->
    step dbg (mk_c m LFree th) None (mk_c m (LWrite t) (upd th t (TLocked (ORemove id))))
| s_lock_read m th t p : th t = TStart (OFind p) ->
    step dbg (mk_c m LFree th) None (mk_c m (LRead [t]) (upd th t (TLocked (OFind p))))
| s_lock_read_more m l th t p : th t = TStart (OFind p) ->
    step dbg (mk_c m (LRead l) th) None (mk_c m (LRead (t :: l)) (upd th t (TLocked (OFind p))))
(* .unwrap() of a poisoned lock *)
| s_poisoned m l th t o : th t = TLocked o -> m_poisoned m = true ->
    step dbg (mk_c m l th) None (mk_c m l (upd th t (TUnlock (panic_of o))))
(* scope.rs:78-91, all of it private to the thread *)
| s_new_root m l th t start data sk root : th t = TLocked (ONew start data sk) -> m_poisoned m = false ->
    root_or_none dbg start data = Ret root ->
    step dbg (mk_c m l th) None (mk_c m l (upd th t (TComparing start data sk root
      (map r_id (filter (rm_touches start (start + lenZ data)) (m_map m))) [])))
| s_new_panic m l th t start data sk : th t = TLocked (ONew start data sk) -> m_poisoned m = false ->
    root_or_none dbg start data = Panic ->
    step dbg (mk_c m l th) None (mk_c m l (upd th t (TPoison (RNew Panic))))
(* scope.rs:92, [RangeMap::insert] compares the entries that touch the new one; :132-142, each
   comparison upgrades the [Weak], looks at the scope and drops the [Arc] again *)
| s_cmp_dead m l th t start data sk root id todo acc : th t = TComparing start data sk root (id :: todo) acc ->
    alive_cell m id = None ->
    step dbg (mk_c m l th) None (mk_c m l (upd th t (TComparing start data sk root todo ((id, false) :: acc))))
| s_cmp_alive m l th t start data sk root id todo acc s : th t = TComparing start data sk root (id :: todo) acc ->
    alive_cell m id = Some s ->
    step dbg (mk_c m l th) None (mk_c (inc m id) l (upd th t (THolding start data sk root id todo acc)))
| s_cmp_done m l th t start data sk root id todo acc s : th t = THolding start data sk root id todo acc ->
    alive_cell m id = Some s ->
    step dbg (mk_c m l th) None
      (mk_c (dec m id) l (upd th t (TComparing start data sk root todo ((id, sc_start s =? start) :: acc))))
| s_insert m l th t start data sk root acc r : th t = TComparing start data sk root [] acc ->
    rm_insert (same_of acc) (m_map m) start (start + lenZ data) (length (m_cells m)) = Some r ->
    step dbg (mk_c m l th) None
      (mk_c (set_map (add_cell m (mk_scope start data sk root true)) r) l
            (upd th t (TUnlock (RNew (Ret (length (m_cells m)))))))
| s_insert_panic m l th t start data sk root acc : th t = TComparing start data sk root [] acc ->
    rm_insert (same_of acc) (m_map m) start (start + lenZ data) (length (m_cells m)) = None ->
    step dbg (mk_c m l th) None (mk_c m l (upd th t (TPoison (RNew Panic))))
(* scope.rs:66-68; the range is looked at and used in one step *)
| s_remove_dead m l th t id : th t = TLocked (ORemove id) -> m_poisoned m = false -> alive_cell m id = None ->
    step dbg (mk_c m l th) None (mk_c m l (upd th t (TUnlock (RUnit (Ret tt)))))
| s_remove m l th t id s r : th t = TLocked (ORemove id) -> m_poisoned m = false -> alive_cell m id = Some s ->
    rm_remove (m_map m) (sc_start s) (sc_end s) = Some r ->
    step dbg (mk_c m l th) None (mk_c (set_map m r) l (upd th t (TUnlock (RUnit (Ret tt)))))
| s_remove_panic m l th t id s : th t = TLocked (ORemove id) -> m_poisoned m = false -> alive_cell m id = Some s ->
    rm_remove (m_map m) (sc_start s) (sc_end s) = None ->
    step dbg (mk_c m l th) None (mk_c m l (upd th t (TPoison (RUnit Panic))))
(* scope.rs:107, the lookup; :108, [upgrade] *)
| s_find_none m l th t p : th t = TLocked (OFind p) -> m_poisoned m = false -> rm_get (m_map m) p = None ->
    step dbg (mk_c m l th) None (mk_c m l (upd th t (TUnlock (RFind (Ret None)))))
| s_find_entry m l th t p id : th t = TLocked (OFind p) -> m_poisoned m = false -> rm_get (m_map m) p = Some id ->
    step dbg (mk_c m l th) None (mk_c m l (upd th t (TGot p id)))
| s_find_dead m l th t p id : th t = TGot p id -> alive_cell m id = None ->
    step dbg (mk_c m l th) None (mk_c m l (upd th t (TUnlock (RFind (Ret None)))))
| s_find m l th t p id s : th t = TGot p id -> alive_cell m id = Some s ->
    step dbg (mk_c m l th) None (mk_c (inc m id) l (upd th t (TUnlock (RFind (Ret (Some id))))))
(* the guard is dropped; during a panic a write guard poisons the lock *)
| s_unlock m l th t r : th t = TUnlock r ->
    step dbg (mk_c m l th) None (mk_c m (unlock l t) (upd th t (TDone r)))
| s_poison m l th t r : th t = TPoison r ->
    step dbg (mk_c m l th) None (mk_c (set_poisoned m) (unlock l t) (upd th t (TDone r))).

(** Executions, with the calls and answers seen. *)
Inductive crun (dbg : bool) : cstate -> list event -> cstate -> Prop :=
| cr_nil c : crun dbg c [] c
| cr_tau c1 tr c2 c3 : crun dbg c1 tr c2 -> step dbg c2 None c3 -> crun dbg c1 tr c3
| cr_event c1 tr c2 e c3 : crun dbg c1 tr c2 -> step dbg c2 (Some e) c3 -> crun dbg c1 (tr ++ [e]) c3.

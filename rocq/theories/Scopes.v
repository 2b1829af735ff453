(** Model of src/scope.rs: data registered in a global map from memory addresses to scopes. *)
From Verif Require Import Prelude Utf8 Float SharedKeys Decode Encodable Encoder.

(* ---------- RangeMap ---------- *)

(** An entry of [RangeMap<usize, ScopeEntry>]: first address, address after the last, and the
    scope the [Weak] pointer refers to (its number). *)
Record rng := mk_rng { r_from : Z; r_to : Z; r_id : nat }.

(** rangemap::RangeMap::get, on an unordered list: the entries never overlap. *)
Fixpoint rm_get (m : list rng) (p : Z) : option nat :=
  match m with
  | [] => None
  | r :: m' => if (r_from r <=? p) && (p <? r_to r) then Some (r_id r) else rm_get m' p
  end.
(** What is left of an entry when [from..to] is taken out of it. *)
Definition rm_cut (from to : Z) (r : rng) : list rng :=
  if (r_to r <=? from) || (to <=? r_from r) then [r]
  else (if r_from r <? from then [mk_rng (r_from r) from (r_id r)] else []) ++
       (if to <? r_to r then [mk_rng to (r_to r) (r_id r)] else []).
(** rangemap::RangeMap::remove; [None] for the assertion that the range is not empty. *)
Definition rm_remove (m : list rng) (from to : Z) : option (list rng) :=
  if to <=? from then None else Some (flat_map (rm_cut from to) m).
(** rangemap::RangeMap::insert; entries of equal value that overlap or touch the new range are
    merged with it. *)
Definition rm_touches (from to : Z) (r : rng) : bool := (r_from r <=? to) && (from <=? r_to r).
Definition rm_insert (same : nat -> bool) (m : list rng) (from to : Z) (id : nat) : option (list rng) :=
  if to <=? from then None
  else
    let mine := filter (fun r => rm_touches from to r && same (r_id r)) m in
    let others := filter (fun r => negb (rm_touches from to r && same (r_id r))) m in
    Some (mk_rng (fold_right (fun r a => Z.min (r_from r) a) from mine)
                 (fold_right (fun r a => Z.max (r_to r) a) to mine) id
          :: flat_map (rm_cut from to) others).

(* ---------- Scopes ---------- *)

(** scope.rs:10-15 [Scope].  The data is at [sc_start] in memory.  [weak_data] and [strong_data]
    are the same [Arc]; [sc_alive] while an [Arc] to the scope exists. *)
Record scope := mk_scope {
  sc_start : Z;
  sc_data : list Z;
  sc_sk : option shared_keys;
  sc_root : option val;
  sc_alive : bool;
}.
Definition sc_end (s : scope) : Z := sc_start s + lenZ (sc_data s).

(** All scopes ever made, the global map, and whether its lock is poisoned (scope.rs:155-158).
    Every operation holds the lock from beginning to end, so operations of several threads take
    effect one after the other.  The life of a scope ends atomically: [Weak::upgrade] fails from
    then on, before the data is freed. *)
Record world := mk_world { w_scopes : list scope; w_map : list rng; w_poisoned : bool }.
Definition world_new : world := mk_world [] [] false.

(** [Weak<Scope>::upgrade] *)
Definition upgrade (w : world) (id : nat) : option scope :=
  match nth_error (w_scopes w) id with
  | Some s => if sc_alive s then Some s else None
  | None => None
  end.

(** scope.rs:115-125, :132-142 equality of entries: both alive, with data at the same place.
    (An alive scope keeps its data alive.) *)
Definition same_data (w : world) (s : scope) (id : nat) : bool :=
  match upgrade w id with Some s' => sc_start s' =? sc_start s | None => false end.

(** scope.rs:96-99 [root_or_none] *)
Definition root_or_none (dbg : bool) (start : Z) (data : list Z) : outcome (option val) :=
  r <- from_bytes (mk_env dbg start data None) ;;
  Ret match r with Ok v => Some v | Err _ => None end.

(** scope.rs:76-94 [new]: the result and the world afterwards.  A panic while the lock is held
    poisons it. *)
Definition scope_new (dbg : bool) (w : world) (start : Z) (data : list Z) (sk : option shared_keys)
  : outcome nat * world :=
  if w_poisoned w then (Panic, w)
  else
    match root_or_none dbg start data with
    | Ret root =>
        let s := mk_scope start data sk root true in
        let id := length (w_scopes w) in
        let w' := mk_world (w_scopes w ++ [s]) (w_map w) false in
        match rm_insert (same_data w' s) (w_map w) start (start + lenZ data) id with
        | Some m => (Ret id, mk_world (w_scopes w ++ [s]) m false)
        | None => (Panic, mk_world (w_scopes w) (w_map w) true)
        end
    | Panic => (Panic, mk_world (w_scopes w) (w_map w) true)
    | UB => (UB, w)
    | Diverge => (Diverge, w)
    end.

(** scope.rs:64-69 [remove], on a scope that is alive. *)
Definition scope_remove (w : world) (id : nat) : outcome unit * world :=
  if w_poisoned w then (Panic, w)
  else
    match upgrade w id with
    | None => (Ret tt, w)
    | Some s =>
        match rm_remove (w_map w) (sc_start s) (sc_end s) with
        | Some m => (Ret tt, mk_world (w_scopes w) m false)
        | None => (Panic, mk_world (w_scopes w) (w_map w) true)
        end
    end.

(** scope.rs:105-109 [containing].  A panic while reading does not poison. *)
Definition scope_containing (w : world) (p : Z) : outcome (option nat) :=
  if w_poisoned w then Panic
  else Ret match rm_get (w_map w) p with
           | Some id => match upgrade w id with Some _ => Some id | None => None end
           | None => None
           end.

(** scope.rs:19-23 [find_shared_keys] *)
Definition find_shared_keys (w : world) (p : Z) : outcome (option shared_keys) :=
  r <- scope_containing w p ;;
  Ret match r with
      | Some id => match upgrade w id with Some s => sc_sk s | None => None end
      | None => None
      end.

(** scope.rs:33-39 [data], :43-50 [root] and :54-59 [range] of a scope that is alive. *)
Definition scope_data (s : scope) : option (list Z) := Some (sc_data s).
Definition scope_root (s : scope) : option (list Z * val) :=
  match sc_root s with Some r => Some (sc_data s, r) | None => None end.
Definition scope_range (s : scope) : option (Z * Z) := Some (sc_start s, sc_end s).

(** The last [Arc] to the scope is dropped.  There is no [Drop] for [Scope]: the entry stays. *)
Fixpoint kill (l : list scope) (id : nat) : list scope :=
  match l, id with
  | [], _ => []
  | s :: r, O => mk_scope (sc_start s) (sc_data s) (sc_sk s) (sc_root s) false :: r
  | s :: r, S n => s :: kill r n
  end.
Definition scope_drop (w : world) (id : nat) : world :=
  mk_world (kill (w_scopes w) id) (w_map w) (w_poisoned w).

(** encoder/mod.rs:288-292 [finish_scoped].  The bytes are moved to an [Arc] at [start]. *)
Definition finish_scoped (c : cfg) (w : world) (start : Z) (e : enc) : outcome nat * world :=
  match finish c e with
  | Ret bs => scope_new (c_dbg c) w start bs (en_sk e)
  | Panic => (Panic, w)
  | UB => (UB, w)
  | Diverge => (Diverge, w)
  end.

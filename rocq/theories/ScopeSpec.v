(** Specification of scopes: histories of creation, removal and dropping in a memory whose
    allocator hands out any free addresses. *)
From Verif Require Import Prelude Utf8 Float SharedKeys Decode Read BuilderSpec Scopes.

Definition alive (w : world) (id : nat) (s : scope) : Prop :=
  nth_error (w_scopes w) id = Some s /\ sc_alive s = true.
(** The address lies within the data. *)
Definition within (s : scope) (p : Z) : Prop := sc_start s <= p < sc_end s.

(** Where the data of a new scope can be.  Data in use is not handed out again.  [fresh]: a
    piece of memory of its own.  [allocated]: or the very data ([Arc]) of another scope. *)
Definition apart (s : scope) (start : Z) (data : list Z) : Prop :=
  sc_end s <= start \/ start + lenZ data <= sc_start s.
Definition fresh (w : world) (start : Z) (data : list Z) : Prop :=
  forall id s, alive w id s -> apart s start data.
Definition allocated (w : world) (start : Z) (data : list Z) : Prop :=
  forall id s, alive w id s -> apart s start data \/ (sc_start s = start /\ sc_data s = data).

(** Worlds that can be reached, with the scopes that are registered: made, not dropped and not
    removed.  Lookups change nothing.  A call that panics is survived (its thread dies, or the
    panic is caught). *)
Inductive reach (dbg : bool) (ok : world -> Z -> list Z -> Prop) : world -> list nat -> Prop :=
| re_start : reach dbg ok world_new []
| re_new w reg start data sk id w' :
    reach dbg ok w reg -> ok w start data -> scope_new dbg w start data sk = (Ret id, w') ->
    reach dbg ok w' (id :: reg)
| re_failed w reg start data sk w' :
    reach dbg ok w reg -> ok w start data -> scope_new dbg w start data sk = (Panic, w') ->
    reach dbg ok w' reg
| re_remove w reg id s r w' :
    reach dbg ok w reg -> alive w id s -> scope_remove w id = (r, w') ->
    reach dbg ok w' (filter (fun j => negb (Nat.eqb j id)) reg)
| re_drop w reg id s :
    reach dbg ok w reg -> alive w id s ->
    reach dbg ok (scope_drop w id) (filter (fun j => negb (Nat.eqb j id)) reg).

(** Data for which making a scope works. *)
Definition usable (dbg : bool) (start : Z) (data : list Z) : Prop :=
  data <> [] /\ exists r, from_bytes (mk_env dbg start data None) = Ret r.

(** The scope [id] holds a document that reads back as [t] with the keys found by address: its
    root is the document's root, every address in its data leads to it, and reading the root
    with the shared keys found for the root's address gives [t] up to the order of dict
    entries. *)
Definition holds_document (dbg : bool) (w : world) (id : nat) (start : Z) (bs : list Z)
  (sk : option shared_keys) (t : tree) : Prop :=
  exists s v k t', alive w id s /\
    scope_data s = Some bs /\ scope_range s = Some (start, start + lenZ bs) /\
    scope_root s = Some (bs, v) /\
    (forall p, start <= p < start + lenZ bs ->
       scope_containing w p = Ret (Some id) /\ find_shared_keys w p = Ret sk) /\
    find_shared_keys w (start + v_pos v) = Ret k /\
    read_doc (mk_env dbg start bs k) v = Ret t' /\ tsim t t'.

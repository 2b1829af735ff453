(** Model of who owns what: the counted pointers ([Arc]) to the bytes of a document and to its
    shared keys, the scopes, owned values, mutable dicts and dict iterators that keep them, and
    the references that iterators hand out.  What is in the bytes does not matter here. *)
From Verif Require Import Prelude.

(* ---------- Counted pointers ---------- *)

Definition put {A} (l : list A) (i : nat) (x : A) : list A := firstn i l ++ x :: skipn (S i) l.

(** The memory behind the [Arc]s of one type: the strong count of each object ever made, 0 when it
    has been freed.  [Arc::clone] (alloc::sync) reads the memory of the object, and so does
    dropping an [Arc]. *)
Definition arc_clone (l : list nat) (i : nat) : outcome (list nat) :=
  match nth_error l i with
  | Some (S n) => Ret (put l i (S (S n)))
  | _ => UB
  end.
Definition arc_drop (l : list nat) (i : nat) : outcome (list nat) :=
  match nth_error l i with
  | Some (S n) => Ret (put l i n)
  | _ => UB
  end.
(** The same for [Option<Arc<SharedKeys>>]. *)
Definition arc_clone_opt (l : list nat) (i : option nat) : outcome (list nat) :=
  match i with Some i => arc_clone l i | None => Ret l end.
Definition arc_drop_opt (l : list nat) (i : option nat) : outcome (list nat) :=
  match i with Some i => arc_drop l i | None => Ret l end.

(* ---------- Memory ---------- *)

(** scope.rs:10-15 [Scope]: the number of [Arc<Scope>]s, its data and its shared keys.
    [weak_data] and the global map's [Weak<Scope>] own nothing. *)
Record oscope := mk_oscope { os_count : nat; os_buf : nat; os_tab : option nat }.

(** What an iterator and the references it hands out borrow from: the owner of a buffer
    (alloced.rs:11-17 [Alloced], or an [Arc<[u8]>] itself), or a mutable dict. *)
Inductive lender := LBuf (a : nat) | LMut (m : nat).
(** Where a reference points: into the bytes of a document, into a table of shared keys, or into
    the map of a mutable dict. *)
Inductive target := InBuf (b : nat) | InTab (t : nat) | InMut (m : nat).

Record own := mk_own {
  o_bufs : list nat;                            (* Arc<[u8]> *)
  o_tabs : list nat;                            (* Arc<SharedKeys> *)
  o_scopes : list oscope;
  o_owners : list (option nat);                 (* Alloced<T> and Arc<[u8]> in the program's hands *)
  o_handles : list (option nat);                (* Arc<SharedKeys> in the program's hands *)
  o_muts : list (option (option nat));          (* MutableDict: its shared keys *)
  o_iters : list (option (lender * option nat)); (* dict iterators: lender, shared keys *)
  o_refs : list (option (lender * target));     (* references handed out *)
}.
Definition own_new : own := mk_own [] [] [] [] [] [] [] [].

Definition set_bufs (s : own) x := mk_own x (o_tabs s) (o_scopes s) (o_owners s) (o_handles s) (o_muts s) (o_iters s) (o_refs s).
Definition set_tabs (s : own) x := mk_own (o_bufs s) x (o_scopes s) (o_owners s) (o_handles s) (o_muts s) (o_iters s) (o_refs s).
Definition set_scopes (s : own) x := mk_own (o_bufs s) (o_tabs s) x (o_owners s) (o_handles s) (o_muts s) (o_iters s) (o_refs s).
Definition set_owners (s : own) x := mk_own (o_bufs s) (o_tabs s) (o_scopes s) x (o_handles s) (o_muts s) (o_iters s) (o_refs s).
Definition set_handles (s : own) x := mk_own (o_bufs s) (o_tabs s) (o_scopes s) (o_owners s) x (o_muts s) (o_iters s) (o_refs s).
Definition set_muts (s : own) x := mk_own (o_bufs s) (o_tabs s) (o_scopes s) (o_owners s) (o_handles s) x (o_iters s) (o_refs s).
Definition set_iters (s : own) x := mk_own (o_bufs s) (o_tabs s) (o_scopes s) (o_owners s) (o_handles s) (o_muts s) x (o_refs s).
Definition set_refs (s : own) x := mk_own (o_bufs s) (o_tabs s) (o_scopes s) (o_owners s) (o_handles s) (o_muts s) (o_iters s) x.

(* ---------- Calls ---------- *)

(** [Scope::find_shared_keys] names the scope that the global map gives for an address, if any:
    which one that is is the subject of Scopes.v, here it is part of the call. *)
Inductive ocall :=
| KNewBytes                                   (* Arc<[u8]> from the program's own bytes; Value::clone_from_bytes *)
| KCloneBytes (a : nat)                       (* Alloced::clone, Arc::clone *)
| KDropBytes (a : nat)
| KNewKeys                                    (* Arc::new(SharedKeys) *)
| KCloneKeys (h : nat)
| KDropKeys (h : nat)
| KNewScope (a : nat) (h : option nat)        (* Scope::new, takes the bytes and the keys *)
| KCloneScope (s : nat)                       (* Arc::clone; Scope::containing *)
| KDropScope (s : nat)
| KScopeKeys (s : nat)                        (* Scope::shared_keys().cloned(); Scope::find_shared_keys *)
| KRoot (s : nat)                             (* Scope::root, Scope::data *)
| KNewMut (h : option nat)                    (* MutableDict::new, new_with_shared_keys *)
| KMutFrom (s : option nat)                   (* MutableDict::from(AllocedDict), clone_from, from_scope *)
| KCloneMut (m : nat)
| KChangeMut (m : nat)                        (* MutableDict::insert, remove, get_..._mut *)
| KDropMut (m : nat)
| KIter (a : nat) (s : option nat)            (* Dict::iter *)
| KIterMut (m : nat)                          (* MutableDict::iter *)
| KNextText (i : nat)                         (* next: key stored as text *)
| KNextShared (i : nat)                       (* next: key stored as number *)
| KDropIter (i : nat)
| KRead (r : nat).                            (* reading what a reference points to *)

(** The keys of the scope that was found. *)
Definition found_tab (st : own) (s : option nat) : option nat :=
  match s with
  | Some s => match nth_error (o_scopes st) s with Some sc => os_tab sc | None => None end
  | None => None
  end.
Definition at_opt {A} (l : list (option A)) (i : nat) : option A :=
  match nth_error l i with Some x => x | None => None end.

(** Freed memory must not be read. *)
Definition alive (l : list nat) (i : nat) : bool :=
  match nth_error l i with Some (S _) => true | _ => false end.

(** References borrowed from mutable dict [m] end when it is changed. *)
Definition end_refs (m : nat) (l : list (option (lender * target))) : list (option (lender * target)) :=
  map (fun r => match r with Some (LMut m', _) => if Nat.eqb m' m then None else r | _ => r end) l.

Definition ostep (st : own) (c : ocall) : outcome own :=
  match c with
  | KNewBytes => Ret (set_owners (set_bufs st (o_bufs st ++ [1%nat])) (o_owners st ++ [Some (length (o_bufs st))]))
  (* alloced.rs:96-103 *)
  | KCloneBytes a =>
      match at_opt (o_owners st) a with
      | Some b => bufs <- arc_clone (o_bufs st) b ;; Ret (set_owners (set_bufs st bufs) (o_owners st ++ [Some b]))
      | None => UB
      end
  | KDropBytes a =>
      match at_opt (o_owners st) a with
      | Some b => bufs <- arc_drop (o_bufs st) b ;; Ret (set_owners (set_bufs st bufs) (put (o_owners st) a None))
      | None => UB
      end
  | KNewKeys => Ret (set_handles (set_tabs st (o_tabs st ++ [1%nat])) (o_handles st ++ [Some (length (o_tabs st))]))
  | KCloneKeys h =>
      match at_opt (o_handles st) h with
      | Some t => tabs <- arc_clone (o_tabs st) t ;; Ret (set_handles (set_tabs st tabs) (o_handles st ++ [Some t]))
      | None => UB
      end
  | KDropKeys h =>
      match at_opt (o_handles st) h with
      | Some t => tabs <- arc_drop (o_tabs st) t ;; Ret (set_handles (set_tabs st tabs) (put (o_handles st) h None))
      | None => UB
      end
  (* scope.rs:77-97: both [Arc]s are moved into the scope *)
  | KNewScope a h =>
      match at_opt (o_owners st) a with
      | Some b =>
          let sc := mk_oscope 1 b (match h with Some h => at_opt (o_handles st) h | None => None end) in
          let st1 := set_owners st (put (o_owners st) a None) in
          let st2 := match h with Some h => set_handles st1 (put (o_handles st1) h None) | None => st1 end in
          Ret (set_scopes st2 (o_scopes st2 ++ [sc]))
      | None => UB
      end
  (* scope.rs:107-112 *)
  | KCloneScope s =>
      match nth_error (o_scopes st) s with
      | Some (mk_oscope (S n) b t) => Ret (set_scopes st (put (o_scopes st) s (mk_oscope (S (S n)) b t)))
      | _ => UB
      end
  (* the last [Arc<Scope>] drops the fields of the scope, in order of declaration *)
  | KDropScope s =>
      match nth_error (o_scopes st) s with
      | Some (mk_oscope (S n) b t) =>
          let st1 := set_scopes st (put (o_scopes st) s (mk_oscope n b t)) in
          match n with
          | O => tabs <- arc_drop_opt (o_tabs st1) t ;; bufs <- arc_drop (o_bufs st1) b ;;
                 Ret (set_bufs (set_tabs st1 tabs) bufs)
          | S _ => Ret st1
          end
      | _ => UB
      end
  (* scope.rs:21-23, 27-29 *)
  | KScopeKeys s =>
      match found_tab st (Some s) with
      | Some t => tabs <- arc_clone (o_tabs st) t ;; Ret (set_handles (set_tabs st tabs) (o_handles st ++ [Some t]))
      | None => Ret st
      end
  (* scope.rs:33-39, 43-50 *)
  | KRoot s =>
      match nth_error (o_scopes st) s with
      | Some sc => bufs <- arc_clone (o_bufs st) (os_buf sc) ;;
                   Ret (set_owners (set_bufs st bufs) (o_owners st ++ [Some (os_buf sc)]))
      | None => UB
      end
  (* mutable/dict.rs:26-28, 39-44 *)
  | KNewMut h =>
      let t := match h with Some h => at_opt (o_handles st) h | None => None end in
      let st1 := match h with Some h => set_handles st (put (o_handles st) h None) | None => st end in
      Ret (set_muts st1 (o_muts st1 ++ [Some t]))
  (* mutable/dict.rs:31-34, 50-70, 285-290 *)
  | KMutFrom s =>
      tabs <- arc_clone_opt (o_tabs st) (found_tab st s) ;;
      Ret (set_muts (set_tabs st tabs) (o_muts st ++ [Some (found_tab st s)]))
  (* mutable/dict.rs:271-283 *)
  | KCloneMut m =>
      match at_opt (o_muts st) m with
      | Some t => tabs <- arc_clone_opt (o_tabs st) t ;; Ret (set_muts (set_tabs st tabs) (o_muts st ++ [Some t]))
      | None => UB
      end
  (* mutable/dict.rs:72-147: the shared keys stay as they are *)
  | KChangeMut m => Ret (set_refs st (end_refs m (o_refs st)))
  | KDropMut m =>
      match at_opt (o_muts st) m with
      | Some t => tabs <- arc_drop_opt (o_tabs st) t ;; Ret (set_muts (set_tabs st tabs) (put (o_muts st) m None))
      | None => UB
      end
  (* value/dict.rs:286-303 *)
  | KIter a s =>
      tabs <- arc_clone_opt (o_tabs st) (found_tab st s) ;;
      Ret (set_iters (set_tabs st tabs) (o_iters st ++ [Some (LBuf a, found_tab st s)]))
  (* mutable/dict.rs:247-259 *)
  | KIterMut m =>
      match at_opt (o_muts st) m with
      | Some t => tabs <- arc_clone_opt (o_tabs st) t ;;
                  Ret (set_iters (set_tabs st tabs) (o_iters st ++ [Some (LMut m, t)]))
      | None => UB
      end
  (* value/dict.rs:245-258, 269-278 and mutable/dict.rs:219-240: key text and value are where
     the lender keeps them *)
  | KNextText i =>
      match at_opt (o_iters st) i with
      | Some (LBuf a, _) =>
          match at_opt (o_owners st) a with
          | Some b => if alive (o_bufs st) b
                      then Ret (set_refs st (o_refs st ++ [Some (LBuf a, InBuf b); Some (LBuf a, InBuf b)]))
                      else UB
          | None => UB
          end
      | Some (LMut m, _) => Ret (set_refs st (o_refs st ++ [Some (LMut m, InMut m); Some (LMut m, InMut m)]))
      | None => UB
      end
  (* value/dict.rs:250-253 and mutable/dict.rs:221-227: the text of the key is in the table, its
     lifetime is made that of the lender *)
  | KNextShared i =>
      match at_opt (o_iters st) i with
      | Some (l, Some t) =>
          if alive (o_tabs st) t
          then match l with
               | LBuf a => match at_opt (o_owners st) a with
                           | Some b => if alive (o_bufs st) b
                                       then Ret (set_refs st (o_refs st ++ [Some (l, InTab t); Some (l, InBuf b)]))
                                       else UB
                           | None => UB
                           end
               | LMut m => Ret (set_refs st (o_refs st ++ [Some (l, InTab t); Some (l, InMut m)]))
               end
          else UB
      | Some (_, None) => Ret st
      | None => UB
      end
  | KDropIter i =>
      match at_opt (o_iters st) i with
      | Some (_, t) => tabs <- arc_drop_opt (o_tabs st) t ;; Ret (set_iters (set_tabs st tabs) (put (o_iters st) i None))
      | None => UB
      end
  | KRead r =>
      match at_opt (o_refs st) r with
      | Some (_, InBuf b) => if alive (o_bufs st) b then Ret st else UB
      | Some (_, InTab t) => if alive (o_tabs st) t then Ret st else UB
      | Some (_, InMut m) => match at_opt (o_muts st) m with Some _ => Ret st | None => UB end
      | None => UB
      end
  end.

(** Model of src/mutable.rs, src/mutable/array.rs and src/mutable/dict.rs: collections that can
    be changed after they are built. *)
From Verif Require Import Prelude Varint Utf8 Float SharedKeys Decode Read Encodable Encoder.

(* ---------- Keys and slots ---------- *)

(** dict.rs:305-309 [Key] *)
Inductive mkey :=
| MKShared (i : Z)
| MKString (s : list Z).

(** dict.rs:305, the derived [Ord]: [Shared] before [String], then by content. *)
Definition mkey_cmp (a b : mkey) : comparison :=
  match a, b with
  | MKShared i, MKShared j => Z.compare i j
  | MKShared _, MKString _ => Lt
  | MKString _, MKShared _ => Gt
  | MKString s, MKString t => bytes_cmp s t
  end.

(** mutable.rs:17-22 [ValueSlot], array.rs:14-16 [MutableArray] (a vector of slots) and
    dict.rs:17-20 [MutableDict] (a [BTreeMap], represented by its entries in key order, and the
    shared keys).  The 15 bytes of an inline slot and the bytes of a boxed value are lists. *)
Inductive slot :=
| SInline (bs : list Z)
| SPointer (bs : list Z)
| SArr (l : list slot)
| SDict (m : list (mkey * slot)) (sk : option shared_keys).

(** mutable.rs:14 *)
Definition INLINE_CAPACITY : Z := 15.

(* ---------- BTreeMap ---------- *)

(** [BTreeMap::get]; the search stops at the first greater key. *)
Fixpoint bt_get (k : mkey) (m : list (mkey * slot)) : option slot :=
  match m with
  | [] => None
  | (k', s) :: m' =>
      match mkey_cmp k k' with
      | Eq => Some s
      | Lt => None
      | Gt => bt_get k m'
      end
  end.
(** [BTreeMap::insert]; an existing key is kept and its value replaced. *)
Fixpoint bt_insert (k : mkey) (s : slot) (m : list (mkey * slot)) : list (mkey * slot) :=
  match m with
  | [] => [(k, s)]
  | (k', s') :: m' =>
      match mkey_cmp k k' with
      | Eq => (k', s) :: m'
      | Lt => (k, s) :: (k', s') :: m'
      | Gt => (k', s') :: bt_insert k s m'
      end
  end.
(** [BTreeMap::remove] *)
Fixpoint bt_remove (k : mkey) (m : list (mkey * slot)) : list (mkey * slot) :=
  match m with
  | [] => []
  | (k', s') :: m' =>
      match mkey_cmp k k' with
      | Eq => m'
      | Lt => (k', s') :: m'
      | Gt => (k', s') :: bt_remove k m'
      end
  end.

(* ---------- Making slots ---------- *)

(** A buffer of [n] zeros after [bs] was stored at its start. *)
Definition zero_padded (n : Z) (bs : list Z) : list Z :=
  firstn (Z.to_nat n) (bs ++ repeat 0 (Z.to_nat n)).

(** mutable.rs:25-38 [ValueSlot::new]; the result of [write_fleece_to] is ignored. *)
Definition slot_new (dbg : bool) (v : encodable) : outcome slot :=
  let n := fleece_size v in
  if n <=? INLINE_CAPACITY then
    r <- write_to dbg v INLINE_CAPACITY false ;;
    Ret (SInline (zero_padded INLINE_CAPACITY match r with Some bs => bs | None => [] end))
  else
    r <- write_to dbg v n false ;;
    Ret (SPointer (zero_padded n match r with Some bs => bs | None => [] end)).

(** dict.rs:159-164 [encode_key] *)
Definition encode_key (sk : option shared_keys) (k : list Z) : mkey :=
  match sk with
  | Some t => match sk_encode t k with Some i => MKShared i | None => MKString k end
  | None => MKString k
  end.
(** dict.rs:221-230 [Iter::decode_key] *)
Definition decode_key (sk : option shared_keys) (k : mkey) : option (list Z) :=
  match k with
  | MKShared i => match sk with Some t => sk_decode t i | None => None end
  | MKString s => Some s
  end.

(** mutable.rs:40-66 [ValueSlot::new_from_fleece], array.rs:26-34 [MutableArray::clone_from] and
    dict.rs:31-34, :57-69 [MutableDict::clone_from].  [Scope::find_shared_keys] is [e_sk src].
    Simplification: the elements are all fetched from the source's iterator first. *)
Fixpoint slot_from_fleece (fuel : nat) (dbg : bool) (src : env) (v : val) (is_wide : bool) : outcome slot :=
  match fuel with
  | O => Diverge
  | S f =>
      t <- value_type src v ;;
      match t with
      | TyNull => slot_new dbg ENull
      | TyUndefined => slot_new dbg EUndef
      | TyFalse => slot_new dbg (EBool false)
      | TyTrue => slot_new dbg (EBool true)
      | TyShort => z <- to_short src v ;; slot_new dbg (EInt I16 z)
      | TyInt => z <- to_int src v ;; slot_new dbg (EInt I64 z)
      | TyUnsignedInt => z <- to_unsigned_int src v ;; slot_new dbg (EInt U64 z)
      | TyFloat => x <- to_float src v ;; slot_new dbg (EF32 x)
      | TyDouble32 | TyDouble64 => x <- to_double src v ;; slot_new dbg (EF64 x)
      | TyString => s <- to_str src v ;; slot_new dbg (EStr s)
      | TyData => s <- to_data src v ;; slot_new dbg (EData s)
      | TyArray =>
          wide <- arr_is_wide src v ;;
          vs <- arr_elems src v ;;
          l <- mapM (fun x => slot_from_fleece f dbg src x wide) vs ;;
          Ret (SArr l)
      | TyDict =>
          wide <- arr_is_wide src v ;;
          kvs <- dict_elems src v ;;
          l <- mapM (fun kv => s <- slot_from_fleece f dbg src (snd kv) wide ;; Ret (fst kv, s)) kvs ;;
          Ret (SDict (fold_left (fun m ks => bt_insert (encode_key (e_sk src) (fst ks)) (snd ks) m) l [])
                 (e_sk src))
      | TyPointer =>
          x <- deref_unchecked (fuel_of src) src v is_wide ;; slot_from_fleece f dbg src x false
      end
  end.

(** mutable.rs:138-151 [ValueSlot::clone], the derived [MutableArray::clone] and dict.rs:271-283
    [MutableDict::clone]. *)
Fixpoint slot_clone (s : slot) : slot :=
  match s with
  | SInline bs => SInline bs
  | SPointer bs => SPointer bs
  | SArr l => SArr (map slot_clone l)
  | SDict m sk =>
      SDict (fold_left (fun m' ks => bt_insert (fst ks) (snd ks) m')
               (map (fun ks => (fst ks, slot_clone (snd ks))) m) []) sk
  end.

(* ---------- Reading a slot ---------- *)

(** mutable.rs:90-98 [value]: the bytes the [Value] consists of. *)
Definition slot_value (s : slot) : option (list Z) :=
  match s with
  | SInline bs | SPointer bs => Some bs
  | SArr _ | SDict _ _ => None
  end.
(** mutable.rs:100-112 [array] / [dict] *)
Definition slot_array (s : slot) : option (list slot) :=
  match s with SArr l => Some l | _ => None end.
Definition slot_dict (s : slot) : option (list (mkey * slot) * option shared_keys) :=
  match s with SDict m sk => Some (m, sk) | _ => None end.

(* ---------- MutableArray ---------- *)

(** array.rs:47-65: [list.get(index)], then the projection to the wanted kind. *)
Definition ma_slot (l : list slot) (i : Z) : option slot := nthZ l i.
(** array.rs:47-49 [get] *)
Definition ma_get (l : list slot) (i : Z) : option (list Z) :=
  match ma_slot l i with Some s => slot_value s | None => None end.
(** array.rs:51-57 [get_array] / [get_dict] *)
Definition ma_get_array (l : list slot) (i : Z) : option (list slot) :=
  match ma_slot l i with Some s => slot_array s | None => None end.
Definition ma_get_dict (l : list slot) (i : Z) : option (list (mkey * slot) * option shared_keys) :=
  match ma_slot l i with Some s => slot_dict s | None => None end.
(** array.rs:136-142 [Index::index] *)
Definition ma_index (l : list slot) (i : Z) : outcome (list Z) :=
  match ma_get l i with Some bs => Ret bs | None => Panic end.
(** array.rs:69-77 [len], [is_empty] *)
Definition ma_len (l : list slot) : Z := lenZ l.
Definition ma_is_empty (l : list slot) : bool := match l with [] => true | _ => false end.

(** [list[i] = s] for [i] within the list. *)
Definition list_set {A} (l : list A) (i : Z) (s : A) : list A :=
  firstn (Z.to_nat i) l ++ s :: skipn (S (Z.to_nat i)) l.
(** [Vec::remove] for [i] within the list. *)
Definition list_remove {A} (l : list A) (i : Z) : list A :=
  firstn (Z.to_nat i) l ++ skipn (S (Z.to_nat i)) l.

(** array.rs:131-133 [replace]: indexing panics out of range. *)
Definition ma_replace (l : list slot) (i : Z) (s : slot) : outcome (list slot) :=
  if (0 <=? i) && (i <? lenZ l) then Ret (list_set l i s) else Panic.
(** array.rs:81-87 [set] *)
Definition ma_set (dbg : bool) (l : list slot) (i : Z) (v : encodable) : outcome (list slot) :=
  s <- slot_new dbg v ;; ma_replace l i s.
(** array.rs:104-110 [push] *)
Definition ma_push (dbg : bool) (l : list slot) (v : encodable) : outcome (list slot) :=
  s <- slot_new dbg v ;; Ret (l ++ [s]).
(** array.rs:99-102 [set_fleece] *)
Definition ma_set_fleece (dbg : bool) (l : list slot) (i : Z) (src : env) (v : val) : outcome (list slot) :=
  s <- slot_from_fleece (fuel_of src) dbg src v false ;; ma_replace l i s.
(** array.rs:112-115 [push_fleece] *)
Definition ma_push_fleece (dbg : bool) (l : list slot) (src : env) (v : val) : outcome (list slot) :=
  s <- slot_from_fleece (fuel_of src) dbg src v false ;; Ret (l ++ [s]).
(** array.rs:117-123 [remove] *)
Definition ma_remove (l : list slot) (i : Z) : list slot :=
  if lenZ l <=? i then l else list_remove l i.

(** array.rs:184-202 [Iter]: the array and the index.  [index += 1] is on a usize; the iterator
    cannot be advanced 2^64 times, so it does not overflow. *)
Record ma_iter := mk_ma_iter { mai_arr : list slot; mai_index : Z }.
(** array.rs:208-213 [into_iter] *)
Definition ma_iter_new (l : list slot) : ma_iter := mk_ma_iter l 0.
(** array.rs:192-196 [next] *)
Definition ma_iter_next (it : ma_iter) : option slot * ma_iter :=
  (nthZ (mai_arr it) (mai_index it), mk_ma_iter (mai_arr it) (mai_index it + 1)).
(** array.rs:198-201 [size_hint] *)
Definition ma_size_hint (it : ma_iter) : Z * option Z :=
  (ma_len (mai_arr it), Some (ma_len (mai_arr it))).

(* ---------- MutableDict ---------- *)

(** dict.rs:83-113, the common part [map.get(&encode_key(key))]. *)
Definition md_slot (m : list (mkey * slot)) (sk : option shared_keys) (k : list Z) : option slot :=
  bt_get (encode_key sk k) m.
(** dict.rs:83-87 [get] *)
Definition md_get m sk k : option (list Z) :=
  match md_slot m sk k with Some s => slot_value s | None => None end.
(** dict.rs:89-99 [get_array] / [get_dict] *)
Definition md_get_array m sk k : option (list slot) :=
  match md_slot m sk k with Some s => slot_array s | None => None end.
Definition md_get_dict m sk k : option (list (mkey * slot) * option shared_keys) :=
  match md_slot m sk k with Some s => slot_dict s | None => None end.
(** dict.rs:167-173 [Index::index] *)
Definition md_index m sk k : outcome (list Z) :=
  match md_get m sk k with Some bs => Ret bs | None => Panic end.
(** dict.rs:71-81 [len], [is_empty] *)
Definition md_len (m : list (mkey * slot)) : Z := lenZ m.
Definition md_is_empty (m : list (mkey * slot)) : bool := match m with [] => true | _ => false end.
(** dict.rs:115-120 [contains_key] *)
Definition md_contains m sk k : bool :=
  match md_slot m sk k with Some _ => true | None => false end.
(** dict.rs:134-145 [insert_dict] / [insert_array]; the last step of [insert] *)
Definition md_insert_slot (m : list (mkey * slot)) (sk : option shared_keys) (k : list Z) (s : slot) :=
  bt_insert (encode_key sk k) s m.
(** dict.rs:124-131 [insert] *)
Definition md_insert (dbg : bool) m sk k (v : encodable) : outcome (list (mkey * slot)) :=
  s <- slot_new dbg v ;; Ret (md_insert_slot m sk k s).
(** dict.rs:147-150 [remove] *)
Definition md_remove (m : list (mkey * slot)) (sk : option shared_keys) (k : list Z) :=
  bt_remove (encode_key sk k) m.

(** dict.rs:175-178 [Iter]: what is left of the map's iterator. *)
Record md_iter := mk_md_iter { mdi_rest : list (mkey * slot); mdi_sk : option shared_keys }.
(** dict.rs:252-258 [into_iter] *)
Definition md_iter_new (m : list (mkey * slot)) (sk : option shared_keys) : md_iter := mk_md_iter m sk.
(** dict.rs:236-240 [next] *)
Definition md_iter_next (it : md_iter) : option (list Z * slot) * md_iter :=
  match mdi_rest it with
  | [] => (None, it)
  | (k, s) :: r =>
      (match decode_key (mdi_sk it) k with Some t => Some (t, s) | None => None end,
       mk_md_iter r (mdi_sk it))
  end.
(** dict.rs:242-244 [size_hint]: [BTreeMap]'s iterator knows its exact length. *)
Definition md_size_hint (it : md_iter) : Z * option Z :=
  (lenZ (mdi_rest it), Some (lenZ (mdi_rest it))).

(* ---------- Walking and changing a tree of collections ---------- *)

(** A [for] loop over an iterator: all items up to the first [None]. *)
Fixpoint ma_collect (fuel : nat) (it : ma_iter) : list slot :=
  match fuel with
  | O => []
  | S f => match ma_iter_next it with (Some s, it') => s :: ma_collect f it' | (None, _) => [] end
  end.
Definition ma_elems (l : list slot) : list slot := ma_collect (S (length l)) (ma_iter_new l).
Fixpoint md_collect (fuel : nat) (it : md_iter) : list (list Z * slot) :=
  match fuel with
  | O => []
  | S f => match md_iter_next it with (Some x, it') => x :: md_collect f it' | (None, _) => [] end
  end.
Definition md_elems (m : list (mkey * slot)) (sk : option shared_keys) : list (list Z * slot) :=
  md_collect (S (length m)) (md_iter_new m sk).

(** One call of the API that changes a mutable collection.  The collections given to
    [set_array], [insert_dict], ... are slots. *)
Inductive mop :=
| MPush (v : encodable)
| MPushFleece (src : env) (v : val)
| MSet (i : Z) (v : encodable)
| MSetFleece (i : Z) (src : env) (v : val)
| MSetArr (i : Z) (l : list slot)
| MSetDict (i : Z) (m : list (mkey * slot)) (sk : option shared_keys)
| MRemoveAt (i : Z)
| MInsert (k : list Z) (v : encodable)
| MInsertArr (k : list Z) (l : list slot)
| MInsertDict (k : list Z) (m : list (mkey * slot)) (sk : option shared_keys)
| MRemoveKey (k : list Z).

(** The call made on the collection [s]; [None] if [s] has no such method. *)
Definition mop_apply (dbg : bool) (o : mop) (s : slot) : outcome (option slot) :=
  match s with
  | SArr l =>
      match o with
      | MPush v => l' <- ma_push dbg l v ;; Ret (Some (SArr l'))
      | MPushFleece src v => l' <- ma_push_fleece dbg l src v ;; Ret (Some (SArr l'))
      | MSet i v => l' <- ma_set dbg l i v ;; Ret (Some (SArr l'))
      | MSetFleece i src v => l' <- ma_set_fleece dbg l i src v ;; Ret (Some (SArr l'))
      | MSetArr i a => l' <- ma_replace l i (SArr a) ;; Ret (Some (SArr l'))
      | MSetDict i m sk => l' <- ma_replace l i (SDict m sk) ;; Ret (Some (SArr l'))
      | MRemoveAt i => Ret (Some (SArr (ma_remove l i)))
      | _ => Ret None
      end
  | SDict m sk =>
      match o with
      | MInsert k v => m' <- md_insert dbg m sk k v ;; Ret (Some (SDict m' sk))
      | MInsertArr k a => Ret (Some (SDict (md_insert_slot m sk k (SArr a)) sk))
      | MInsertDict k a ak => Ret (Some (SDict (md_insert_slot m sk k (SDict a ak)) sk))
      | MRemoveKey k => Ret (Some (SDict (md_remove m sk k) sk))
      | _ => Ret None
      end
  | _ => Ret None
  end.

(** A step down: [get_array_mut] / [get_dict_mut] with an index or a key. *)
Inductive mstep :=
| MIdx (i : Z)
| MKey (k : list Z).

(** Making the call on the collection reached by the path (array.rs:59-65, dict.rs:101-113).
    [None] if the path leads nowhere or the collection has no such method; nothing is changed
    then. *)
Fixpoint mop_at (dbg : bool) (p : list mstep) (o : mop) (s : slot) : outcome (option slot) :=
  match p with
  | [] => mop_apply dbg o s
  | MIdx i :: p' =>
      match s with
      | SArr l =>
          match ma_slot l i with
          | Some x =>
              r <- mop_at dbg p' o x ;;
              Ret match r with Some x' => Some (SArr (list_set l i x')) | None => None end
          | None => Ret None
          end
      | _ => Ret None
      end
  | MKey k :: p' =>
      match s with
      | SDict m sk =>
          match md_slot m sk k with
          | Some x =>
              r <- mop_at dbg p' o x ;;
              Ret match r with Some x' => Some (SDict (bt_insert (encode_key sk k) x' m) sk) | None => None end
          | None => Ret None
          end
      | _ => Ret None
      end
  end.

(** A program: calls on collections somewhere below the root.  A call that finds no collection
    to act on changes nothing. *)
Fixpoint mrun (dbg : bool) (s : slot) (ops : list (list mstep * mop)) : outcome slot :=
  match ops with
  | [] => Ret s
  | (p, o) :: ops' =>
      r <- mop_at dbg p o s ;;
      mrun dbg match r with Some s' => s' | None => s end ops'
  end.

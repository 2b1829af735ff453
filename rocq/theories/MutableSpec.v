(** Specification: mutable collections as ordinary lists and maps.  The content of a mutable
    value is a [tree]; the entries of a dict are in no particular order. *)
From Verif Require Import Prelude Utf8 Float SharedKeys Decode Read Encodable Encoder BuilderSpec
  ValueSpec PathSpec CopySpec Mutable.
From Coq Require Import Permutation Sorted.

(* ---------- Lists and maps ---------- *)

(** Replacing and deleting the element at a position. *)
Fixpoint set_at {A} (n : nat) (x : A) (l : list A) : list A :=
  match l, n with
  | [], _ => []
  | _ :: r, O => x :: r
  | y :: r, S n' => y :: set_at n' x r
  end.
Fixpoint del_at {A} (n : nat) (l : list A) : list A :=
  match l, n with
  | [], _ => []
  | _ :: r, O => r
  | y :: r, S n' => y :: del_at n' r
  end.

(** Binding a key and removing it. *)
Fixpoint put (k : list Z) (x : tree) (l : list (list Z * tree)) : list (list Z * tree) :=
  match l with
  | [] => [(k, x)]
  | (k', y) :: r => if bytes_eqb k' k then (k, x) :: r else (k', y) :: put k x r
  end.
Definition drop_key (k : list Z) (l : list (list Z * tree)) : list (list Z * tree) :=
  filter (fun e => negb (bytes_eqb (fst e) k)) l.

(** The operations of a list and of a map. *)
Inductive sop :=
| SPush (x : tree)
| SSet (i : Z) (x : tree)
| SDel (i : Z)
| SPut (k : list Z) (x : tree)
| SDrop (k : list Z).

(** Their effect; [Panic] for setting beyond the end, [None] if there is no such method. *)
Definition sop_apply (o : sop) (t : tree) : outcome (option tree) :=
  match t with
  | TArr l =>
      match o with
      | SPush x => Ret (Some (TArr (l ++ [x])))
      | SSet i x => if i <? lenZ l then Ret (Some (TArr (set_at (Z.to_nat i) x l))) else Panic
      | SDel i => Ret (Some (TArr (del_at (Z.to_nat i) l)))
      | _ => Ret None
      end
  | TDict l =>
      match o with
      | SPut k x => Ret (Some (TDict (put k x l)))
      | SDrop k => Ret (Some (TDict (drop_key k l)))
      | _ => Ret None
      end
  | _ => Ret None
  end.

(** The same on a collection somewhere inside a tree. *)
Fixpoint sop_at (p : list mstep) (o : sop) (t : tree) : outcome (option tree) :=
  match p with
  | [] => sop_apply o t
  | MIdx i :: p' =>
      match t with
      | TArr l =>
          match nthZ l i with
          | Some x =>
              r <- sop_at p' o x ;;
              Ret match r with Some x' => Some (TArr (set_at (Z.to_nat i) x' l)) | None => None end
          | None => Ret None
          end
      | _ => Ret None
      end
  | MKey k :: p' =>
      match t with
      | TDict l =>
          match assoc k l with
          | Some x =>
              r <- sop_at p' o x ;;
              Ret match r with Some x' => Some (TDict (put k x' l)) | None => None end
          | None => Ret None
          end
      | _ => Ret None
      end
  end.
Fixpoint srun (t : tree) (ops : list (list mstep * sop)) : outcome tree :=
  match ops with
  | [] => Ret t
  | (p, o) :: ops' =>
      r <- sop_at p o t ;;
      srun match r with Some t' => t' | None => t end ops'
  end.

(* ---------- What a mutable value holds ---------- *)

Definition is_scalar (t : tree) : bool := match t with TArr _ | TDict _ => false | _ => true end.

(** What is stored for a value in a mutable collection: as in an encoded array
    ([stored_value]), except that all values of the 8- and 16-bit unsigned types are kept. *)
Fixpoint slot_stores (v : encodable) : option tree :=
  match v with
  | EInt (U8 | U16) z => Some (TInt z)
  | ESome w => slot_stores w
  | _ => stored_value v
  end.

(** A key no dict can mistake for an entry of one of the tables [T]: table entries are cut to 15
    bytes, so a longer key must not begin with one. *)
Definition own (T : list shared_keys) (k : list Z) : Prop :=
  lenZ k <= 15 \/ forall t, In t T -> ~ In (firstn 15 k) t.

(** The scalar [t] is what is read from the bytes, wherever they are in memory. *)
Definition reads_as (bs : list Z) (t : tree) : Prop :=
  forall dbg base, read_doc (mk_env dbg base bs None) (V 0 (lenZ bs)) = Ret t.

(** The slot holds the tree.  [T] are the shared key tables in use. *)
Inductive shows (T : list shared_keys) : slot -> tree -> Prop :=
| sh_inline bs t : is_scalar t = true -> reads_as bs t -> shows T (SInline bs) t
| sh_pointer bs t : is_scalar t = true -> reads_as bs t -> shows T (SPointer bs) t
| sh_arr l ts : Forall2 (shows T) l ts -> shows T (SArr l) (TArr ts)
| sh_dict m sk l l' :
    Permutation l l' ->
    Forall2 (fun a b => (fst a = encode_key sk (fst b) /\ own T (fst b)) /\ shows T (snd a) (snd b)) m l' ->
    StronglySorted (fun a b => mkey_cmp (fst a) (fst b) = Lt) m ->
    match sk with Some t => In t T | None => True end ->
    shows T (SDict m sk) (TDict l).

(** Every scalar of the value [v] of [src] is one that is stored as it is, written with the Rust
    type its Fleece type is read as. *)
Definition kept (o : op) : Prop :=
  match o with OpValue w => slot_stores w = Some (tree_of w) | _ => True end.
(** Every key in the tree satisfies [P]. *)
Inductive keys_all (P : list Z -> Prop) : tree -> Prop :=
| ka_scalar t : is_scalar t = true -> keys_all P t
| ka_arr l : Forall (keys_all P) l -> keys_all P (TArr l)
| ka_dict l : Forall (fun kt => P (fst kt) /\ keys_all P (snd kt)) l -> keys_all P (TDict l).

(** [v] in [src] reads as [t], and [t] can be held: its scalars are kept, no dict has two equal
    keys, and its keys are clear of the tables. *)
Definition holdable (T : list shared_keys) (src : env) (v : val) (t : tree) : Prop :=
  src_ok src /\ match e_sk src with Some k => In k T | None => True end /\
  read_doc src v = Ret t /\ distinct t /\ keys_all (own T) t /\
  exists calls, value_calls (fuel_of src) src v = Ret calls /\ Forall kept calls.

(** Which operation on trees a call of the API is. *)
Inductive means (T : list shared_keys) : mop -> sop -> Prop :=
| me_push v x : wf_enc v -> slot_stores v = Some x -> means T (MPush v) (SPush x)
| me_push_fleece src v x : holdable T src v x -> means T (MPushFleece src v) (SPush x)
| me_set i v x : 0 <= i -> wf_enc v -> slot_stores v = Some x -> means T (MSet i v) (SSet i x)
| me_set_fleece i src v x : 0 <= i -> holdable T src v x -> means T (MSetFleece i src v) (SSet i x)
| me_set_arr i l x : 0 <= i -> shows T (SArr l) x -> means T (MSetArr i l) (SSet i x)
| me_set_dict i m sk x : 0 <= i -> shows T (SDict m sk) x -> means T (MSetDict i m sk) (SSet i x)
| me_remove_at i : 0 <= i -> means T (MRemoveAt i) (SDel i)
| me_insert k v x : own T k -> wf_enc v -> slot_stores v = Some x -> means T (MInsert k v) (SPut k x)
| me_insert_arr k l x : own T k -> shows T (SArr l) x -> means T (MInsertArr k l) (SPut k x)
| me_insert_dict k m sk x : own T k -> shows T (SDict m sk) x -> means T (MInsertDict k m sk) (SPut k x)
| me_remove_key k : own T k -> means T (MRemoveKey k) (SDrop k).

(** The keys on a path are clear of the tables. *)
Definition own_path (T : list shared_keys) (p : list mstep) : Prop :=
  Forall (fun s => match s with MKey k => own T k | MIdx _ => True end) p.

(** A program of API calls and the operations on trees it stands for. *)
Definition means_all (T : list shared_keys) : list (list mstep * mop) -> list (list mstep * sop) -> Prop :=
  Forall2 (fun a b => fst a = fst b /\ own_path T (fst a) /\ means T (snd a) (snd b)).

(* ---------- What a user sees ---------- *)

(** Walking down with [get], [get_array], [get_dict] and the [Ref]s they are built on. *)
Fixpoint m_at (s : slot) (p : list mstep) : option slot :=
  match p with
  | [] => Some s
  | MIdx i :: p' =>
      match s with
      | SArr l => match ma_slot l i with Some x => m_at x p' | None => None end
      | _ => None
      end
  | MKey k :: p' =>
      match s with
      | SDict m sk => match md_slot m sk k with Some x => m_at x p' | None => None end
      | _ => None
      end
  end.
Definition to_path (p : list mstep) : list pstep :=
  map (fun s => match s with MIdx i => PIdx i | MKey k => PKey k end) p.

(** What [get], [get_array], [get_dict] and indexing return for one index or key; [x] is what
    should be there. *)
Definition item_like (x : option tree) (g : option (list Z)) (ga : option (list slot))
    (gd : option (list (mkey * slot) * option shared_keys)) (ix : outcome (list Z)) : Prop :=
  match x with
  | None => g = None /\ ga = None /\ gd = None /\ ix = Panic
  | Some (TArr ts) => g = None /\ (exists l, ga = Some l /\ ma_len l = lenZ ts) /\ gd = None /\ ix = Panic
  | Some (TDict es) => g = None /\ ga = None /\ (exists m sk, gd = Some (m, sk) /\ md_len m = lenZ es) /\ ix = Panic
  | Some t => exists bs, g = Some bs /\ reads_as bs t /\ ga = None /\ gd = None /\ ix = Ret bs
  end.

(** What [len], [is_empty], [get] and the like, [contains_key], [value], [array], [dict] and
    iteration tell about one slot. *)
Definition looks_like (T : list shared_keys) (s : slot) (t : tree) : Prop :=
  match t with
  | TArr ts =>
      exists l, slot_array s = Some l /\ slot_value s = None /\ slot_dict s = None /\
        ma_len l = lenZ ts /\ (ma_is_empty l = true <-> ts = []) /\ ma_elems l = l /\
        forall i, 0 <= i ->
          (ma_slot l i = None <-> lenZ ts <= i) /\
          item_like (nthZ ts i) (ma_get l i) (ma_get_array l i) (ma_get_dict l i) (ma_index l i)
  | TDict es =>
      exists m sk, slot_dict s = Some (m, sk) /\ slot_value s = None /\ slot_array s = None /\
        md_len m = lenZ es /\ (md_is_empty m = true <-> es = []) /\
        Permutation (map fst (md_elems m sk)) (map fst es) /\
        (forall k x, In (k, x) (md_elems m sk) -> md_slot m sk k = Some x) /\
        (forall k, own T k ->
          (md_contains m sk k = true <-> In k (map fst es)) /\
          item_like (assoc k es) (md_get m sk k) (md_get_array m sk k) (md_get_dict m sk k) (md_index m sk k))
  | _ =>
      exists bs, slot_value s = Some bs /\ slot_array s = None /\ slot_dict s = None /\ reads_as bs t
  end.

(** All that can be seen agrees with the tree: the same paths lead somewhere, and what is there
    looks like the subtree. *)
Definition agrees (T : list shared_keys) (s : slot) (t : tree) : Prop :=
  forall p, own_path T p ->
  match tree_at t (to_path p) with
  | Some x => exists s', m_at s p = Some s' /\ looks_like T s' x
  | None => m_at s p = None
  end.

(* ---------- Values ---------- *)

(** [x] reads back as [v] through the accessor of the type of [v]. *)
Fixpoint reads_back (v : encodable) (e : env) (x : val) : Prop :=
  match v with
  | EInt (U8 | U16 | U32 | U64 | Usize) z => to_unsigned_int e x = Ret z
  | EInt _ z => to_int e x = Ret z
  | EF32 b => to_float e x = Ret (quiet32 b)
  | EF64 b => to_double e x = Ret b
  | EBool b => value_type e x = Ret (if b then TyTrue else TyFalse) /\ to_bool e x = Ret b
  | ENull | ENone => value_type e x = Ret TyNull
  | EUndef => value_type e x = Ret TyUndefined
  | EStr s => value_type e x = Ret TyString /\ to_str e x = Ret s
  | EData s => value_type e x = Ret TyData /\ to_data e x = Ret s
  | ESome w => reads_back w e x
  | ESized _ | EHdr _ _ => True
  end.
(** The values a mutable collection keeps: everything but most signed integers, and the
    unsigned integers of 64 bits whose low zero bits make the byte count too small. *)
Fixpoint keeps (v : encodable) : Prop :=
  match v with
  | EInt (U8 | U16 | U32) _ => True
  | EInt (U64 | Usize) z => z <= 2047 \/ z < 256 ^ (8 - (ctz64 z + 7) / 8)
  | EInt _ z => -2048 <= z <= 2047
  | ESome w => keeps w
  | ESized _ | EHdr _ _ => False
  | _ => True
  end.
(** The bytes of a slot read back as [v], wherever they are in memory. *)
Definition slot_reads_back (v : encodable) (bs : list Z) : Prop :=
  forall dbg base, reads_back v (mk_env dbg base bs None) (V 0 (lenZ bs)).

(* ---------- Iterators ---------- *)

(** The iterator after [n] calls of [next]. *)
Fixpoint ma_after (n : nat) (it : ma_iter) : ma_iter :=
  match n with O => it | S n' => ma_after n' (snd (ma_iter_next it)) end.
Fixpoint md_after (n : nat) (it : md_iter) : md_iter :=
  match n with O => it | S n' => md_after n' (snd (md_iter_next it)) end.
(** The items it still yields. *)
Definition ma_left (it : ma_iter) : list slot := ma_collect (S (length (mai_arr it))) it.
Definition md_left (it : md_iter) : list (list Z * slot) := md_collect (S (length (mdi_rest it))) it.

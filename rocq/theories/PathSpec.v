(** Following a path through a value: in the abstract tree, and through the API. *)
From Verif Require Import Prelude SharedKeys Decode Read Encodable Encoder BuilderSpec.
From Coq Require Import Permutation Sorted.

(** One step: an array index or a dict key. *)
Inductive pstep :=
| PIdx (i : Z)
| PKey (k : list Z).

(** The value of the first entry with this key. *)
Fixpoint assoc (k : list Z) (l : list (list Z * tree)) : option tree :=
  match l with
  | [] => None
  | (k', t) :: l' => if bytes_eqb k' k then Some t else assoc k l'
  end.

Fixpoint tree_at (t : tree) (p : list pstep) : option tree :=
  match p with
  | [] => Some t
  | PIdx i :: p' =>
      match t with
      | TArr l => match nthZ l i with Some x => tree_at x p' | None => None end
      | _ => None
      end
  | PKey k :: p' =>
      match t with
      | TDict l => match assoc k l with Some x => tree_at x p' | None => None end
      | _ => None
      end
  end.

(** No dict in the tree has two entries with the same key. *)
Inductive distinct : tree -> Prop :=
| di_null : distinct TNull
| di_undef : distinct TUndef
| di_bool b : distinct (TBool b)
| di_int z : distinct (TInt z)
| di_f32 b : distinct (TF32 b)
| di_f64 b : distinct (TF64 b)
| di_str s : distinct (TStr s)
| di_data s : distinct (TData s)
| di_arr l : Forall distinct l -> distinct (TArr l)
| di_dict l :
    NoDup (map fst l) -> Forall (fun kt => distinct (snd kt)) l -> distinct (TDict l).

(** [value.as_array()?.get(i)?], [value.as_dict()?.get(k)?], ... *)
Fixpoint go (e : env) (v : val) (p : list pstep) : outcome (option val) :=
  match p with
  | [] => Ret (Some v)
  | PIdx i :: p' =>
      a <- as_array e v ;;
      match a with
      | None => Ret None
      | Some a => x <- arr_get e a i ;; match x with Some x => go e x p' | None => Ret None end
      end
  | PKey k :: p' =>
      d <- as_dict e v ;;
      match d with
      | None => Ret None
      | Some d => x <- dict_get e d k ;; match x with Some x => go e x p' | None => Ret None end
      end
  end.

(** The same with [get_with_shared_keys]. *)
Fixpoint go_sk (sk : shared_keys) (e : env) (v : val) (p : list pstep) : outcome (option val) :=
  match p with
  | [] => Ret (Some v)
  | PIdx i :: p' =>
      a <- as_array e v ;;
      match a with
      | None => Ret None
      | Some a => x <- arr_get e a i ;; match x with Some x => go_sk sk e x p' | None => Ret None end
      end
  | PKey k :: p' =>
      d <- as_dict e v ;;
      match d with
      | None => Ret None
      | Some d => x <- dict_get_sk e d k sk ;; match x with Some x => go_sk sk e x p' | None => Ret None end
      end
  end.

(** No index on the path equals the length of the array it is applied to (there [Array::get]
    is wrong, see C22) or is negative (not a usize). *)
Fixpoint no_edge (t : tree) (p : list pstep) : Prop :=
  match p with
  | [] => True
  | PIdx i :: p' =>
      match t with
      | TArr l =>
          0 <= i /\ i <> lenZ l /\ match nthZ l i with Some x => no_edge x p' | None => True end
      | _ => True
      end
  | PKey k :: p' =>
      match t with
      | TDict l => match assoc k l with Some x => no_edge x p' | None => True end
      | _ => True
      end
  end.

(** The order of entries in an encoded dict: the shared keys first, by number, then the others
    by their bytes. *)
Definition key_before (sk : option shared_keys) (a b : list Z) : Prop :=
  let number k := match sk with Some t => sk_encode t k | None => None end in
  match number a, number b with
  | Some i, Some j => i < j
  | Some _, None => True
  | None, Some _ => False
  | None, None => bytes_cmp a b = Lt
  end.

(** [nav], started at the root of a document holding [t], answers the path query [p] as [t]
    does: the value found reads back as the subtree (up to the order of dict entries), and
    nothing is found where the tree has nothing. *)
Definition answers (m : env) (nav : list pstep -> outcome (option val)) (t : tree)
  (p : list pstep) : Prop :=
  match tree_at t p with
  | Some s => exists x s', nav p = Ret (Some x) /\ read_doc m x = Ret s' /\ tsim s s'
  | None => no_edge t p -> nav p = Ret None
  end.

(** Iterating the dict [d] yields the entries [l], each exactly once, in key order. *)
Definition iterates (m : env) (sk : option shared_keys) (d : val) (l : list (list Z * tree)) : Prop :=
  exists kvs, dict_elems m d = Ret kvs /\
    StronglySorted (key_before sk) (map fst kvs) /\
    Permutation (map fst kvs) (map fst l) /\
    forall k x, In (k, x) kvs ->
      exists s s', In (k, s) l /\ read_doc m x = Ret s' /\ tsim s s'.

(** A key table as [encode_and_insert] builds it, no key having been cut to 15 bytes. *)
Definition table_wf (ua : Z -> bool) (t : shared_keys) : Prop :=
  NoDup t /\ Forall (fun k => lenZ k <= 15 /\ can_encode ua k = true) t.
(** A key too long for the table is not mistaken for a key in the table. *)
Definition clear_of (t : shared_keys) (k : list Z) : Prop :=
  15 < lenZ k -> ~ In (firstn 15 k) t.
(** Nor is a key of less than two bytes, which a document never takes from the table. *)
Definition apart_from (t : shared_keys) (k : list Z) : Prop :=
  clear_of t k /\ (lenZ k < 2 -> ~ In k t).

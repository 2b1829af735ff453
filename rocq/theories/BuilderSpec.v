(** Specification of what the calls made on an encoder describe: a stack of open collections
    and the finished root.  Independent of the encoder's own data structures. *)
From Verif Require Import Prelude Utf8 Float SharedKeys Decode Read Encodable Encoder.
From Coq Require Import Permutation Sorted.

(** The value an [Encodable] denotes.  (An f32 is read through f64, which quiets NaNs.) *)
Fixpoint tree_of (v : encodable) : tree :=
  match v with
  | EInt _ z => TInt z
  | EF32 b => TF32 (quiet32 b)
  | EF64 b => TF64 b
  | EBool b => TBool b
  | ENull | ENone => TNull
  | EUndef => TUndef
  | EStr s => TStr s
  | EData s => TData s
  | ESome w => tree_of w
  | ESized _ | EHdr _ _ => TNull
  end.

(** The values a Rust program can build: integers in range, valid UTF-8 strings, slices of at
    most isize::MAX bytes.  ([SizedValue] and the collection headers are private types.) *)
Fixpoint wf_enc (v : encodable) : Prop :=
  match v with
  | EInt t z => ity_min t <= z <= ity_max t
  | EF32 b => 0 <= b < two32
  | EF64 b => 0 <= b < two64
  | EBool _ | ENull | EUndef | ENone => True
  | EStr s => all_bytes s /\ lenZ s < two63 /\ utf8_valid s = true
  | EData s => all_bytes s /\ lenZ s < two63
  | ESome w => wf_enc w
  | ESized _ | EHdr _ _ => False
  end.

(** Equality of trees up to the order of dict entries. *)
Inductive tsim : tree -> tree -> Prop :=
| ts_refl t : tsim t t
| ts_arr l m : Forall2 tsim l m -> tsim (TArr l) (TArr m)
| ts_dict l l' m :
    Permutation l l' ->
    Forall2 (fun a b => fst a = fst b /\ tsim (snd a) (snd b)) l' m ->
    tsim (TDict l) (TDict m).

(** An open collection: the values so far, and for a dict the key waiting for its value. *)
Inductive frame :=
| FArr (l : list tree)
| FDict (l : list (list Z * tree)) (pending : option (list Z)).

(** Open collections (innermost first) and the finished root. *)
Record bstate := mk_b { b_stack : list frame; b_root : option tree }.
Definition b_init : bstate := mk_b [] None.

(** Adding a finished value to an open collection. *)
Definition add_child (f : frame) (t : tree) : frame :=
  match f with
  | FArr l => FArr (l ++ [t])
  | FDict l (Some k) => FDict (l ++ [(k, t)]) None
  | FDict l None => FDict l None
  end.
(** The value of a collection when it is closed (a dangling key is dropped). *)
Definition close_frame (f : frame) : tree :=
  match f with
  | FArr l => TArr l
  | FDict l _ => TDict l
  end.

(** Closing the innermost collection. *)
Definition b_pop (b : bstate) : bstate :=
  match b_stack b with
  | [] => b
  | [f] => mk_b [] (Some (close_frame f))
  | f :: g :: st => mk_b (add_child g (close_frame f) :: st) (b_root b)
  end.

(** The call protocol: which calls are allowed, what they do, and which rule a refused call
    violates. *)
Definition b_begin (b : bstate) (f : frame) : result bstate encode_error :=
  match b_root b, b_stack b with
  | Some _, _ => Err MultiTopLevelCollection
  | None, FDict _ None :: _ => Err DictWaitingForKey
  | None, st => Ok (mk_b (f :: st) None)
  end.
Definition b_step (b : bstate) (o : op) : result bstate encode_error :=
  match o with
  | OpKey k =>
      match b_stack b with
      | FDict l None :: st => Ok (mk_b (FDict l (Some k) :: st) (b_root b))
      | FDict _ (Some _) :: _ => Err DictWaitingForValue
      | _ => Err DictNotOpen
      end
  | OpValue v =>
      match b_stack b with
      | [] => Err CollectionNotOpen
      | FDict _ None :: _ => Err DictWaitingForKey
      | f :: st => Ok (mk_b (add_child f (tree_of v) :: st) (b_root b))
      end
  | OpBeginArray _ => b_begin b (FArr [])
  | OpBeginDict => b_begin b (FDict [] None)
  | OpEndArray =>
      match b_stack b with
      | FArr _ :: _ => Ok (b_pop b)
      | _ => Err ArrayNotOpen
      end
  | OpEndDict =>
      match b_stack b with
      | FDict _ None :: _ => Ok (b_pop b)
      | FDict _ (Some _) :: _ => Err DictWaitingForValue
      | _ => Err DictNotOpen
      end
  | OpSetSharedKeys _ => Ok b
  end.

(** A run of calls: a refused call changes nothing.  Gives the final state and what every
    call returned. *)
Fixpoint b_run (b : bstate) (ops : list op) : bstate * list (result unit encode_error) :=
  match ops with
  | [] => (b, [])
  | o :: ops' =>
      match b_step b o with
      | Ok b' => let r := b_run b' ops' in (fst r, Ok tt :: snd r)
      | Err er => let r := b_run b ops' in (fst r, Err er :: snd r)
      end
  end.

(** [finish]: close everything from the innermost collection outwards. *)
Definition b_finish (b : bstate) : option tree :=
  match b_stack b with
  | [] => b_root b
  | f :: st => Some (fold_left (fun t g => close_frame (add_child g t)) st (close_frame f))
  end.

(** What [sort_unstable_by] guarantees. *)
Definition sort_ok (sort : list delem -> list delem) : Prop :=
  forall l, Permutation l (sort l) /\
    StronglySorted (fun a b => enc_key_cmp (de_key a) (de_key b) <> Gt) (sort l).

(** An a-priori bound on the bytes a call adds to the document: its own bytes, the slot that
    refers to it, and for a collection also its header and the root pointer. *)
Definition op_size (o : op) : Z :=
  match o with
  | OpKey k => bytes_fleece_size (lenZ k) + 1 + 4
  | OpValue v => fleece_size v + 1 + 4
  | OpBeginArray _ | OpBeginDict => 22
  | OpEndArray | OpEndDict | OpSetSharedKeys _ => 0
  end.
Definition ops_size (ops : list op) : Z := fold_right (fun o n => op_size o + n) 0 ops.

(* ---------- conditions under which the encoder is shown to be right ---------- *)

(** The values the encoder handles correctly. *)
Fixpoint enc_ok (v : encodable) : bool :=
  match v with
  | EInt t z =>
      match t with
      | I64 | I32 | Isize | I16 => (-2048 <=? z) && (z <=? 2047)
      | I8 | U8 | U32 => true
      | U16 => z <=? 2047
      | U64 | Usize => (z <=? 2047) || (z <? 256 ^ (8 - (ctz64 z + 7) / 8))
      end
  | ESome w => enc_ok w
  | _ => true
  end.

(** Values that are not stored as an inline string or data blob. *)
Fixpoint no_short_text (v : encodable) : bool :=
  match v with
  | EStr s | EData s => 2 <=? lenZ s
  | ESome w => no_short_text w
  | _ => true
  end.
(** What is asked of the arguments of a call. *)
Definition good_op (o : op) : Prop :=
  match o with
  | OpKey k => wf_enc (EStr k)
  | OpValue v => wf_enc v /\ enc_ok v = true
  | OpBeginArray n => n * 4 < two63
  | _ => True
  end.
(** The calls whose refusal is not harmless (see the [_refuted] theorems) are not made. *)
Definition polite_op (b : bstate) (o : op) : Prop :=
  match o with
  | OpKey _ | OpBeginDict => b_root b = None
  | OpEndArray => match b_stack b with FDict _ None :: _ => False | _ => True end
  | _ => True
  end.
Fixpoint polite (b : bstate) (ops : list op) : Prop :=
  match ops with
  | [] => True
  | o :: ops' => polite_op b o /\ polite (match b_step b o with Ok b' => b' | Err _ => b end) ops'
  end.
(** [set_shared_keys] is called at most once, and after it no key is 16 bytes long. *)
Fixpoint keys_ok (shared : bool) (ops : list op) : Prop :=
  match ops with
  | [] => True
  | OpKey k :: ops' => (shared = true -> lenZ k <> 16) /\ keys_ok shared ops'
  | OpSetSharedKeys _ :: ops' => shared = false /\ keys_ok true ops'
  | _ :: ops' => keys_ok shared ops'
  end.

(** The two calls whose answer or effect departs from the protocol. *)
Definition regular (b : bstate) (o : op) : Prop :=
  match o with
  | OpEndArray => match b_stack b with FDict _ None :: _ => False | _ => True end
  | OpBeginDict => b_root b = None
  | _ => True
  end.

Fixpoint regulars (b : bstate) (ops : list op) : Prop :=
  match ops with
  | [] => True
  | o :: ops' => regular b o /\ regulars (match b_step b o with Ok b' => b' | Err _ => b end) ops'
  end.

(** The bytes [bs], placed at address [base], are accepted and read back as [t] up to the order
    of dict entries.  [sk] are the shared keys known for the address (through its Scope). *)
Definition decodes_to (dbg : bool) (base : Z) (bs : list Z) (sk : option shared_keys) (t : tree)
  : Prop :=
  let m := mk_env dbg base bs sk in
  exists v t', from_bytes m = Ret (Ok v) /\ from_bytes_unchecked m = Ret v /\
    read_doc m v = Ret t' /\ tsim t t'.
(** A slice of [bs] at [base] fits the address space. *)
Definition addressable (base : Z) (bs : list Z) : Prop :=
  0 <= base /\ base + lenZ bs < two64.

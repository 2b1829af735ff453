(** Specification: documents built by calls some of which copy a value read elsewhere
    ([write_fleece]). *)
From Verif Require Import Prelude Float SharedKeys Decode Read Encodable Encoder BuilderSpec.

(** A call of the encoder: an ordinary one, or [write_fleece] of the value [v] in [src]. *)
Inductive xop :=
| XOp (o : op)
| XCopy (src : env) (v : val).

(** A program that makes the calls in order and stops at the first error. *)
Definition xstep (c : cfg) (e : enc) (x : xop) : eres :=
  match x with
  | XOp o => enc_step c e o
  | XCopy src v => write_fleece (fuel_of src) c e src v
  end.
Definition xrun (c : cfg) (e : enc) (xs : list xop) : eres := for_each (xstep c) e xs.

(** Adding the finished value [t]: a collection is allowed where one may begin, any other value
    where a value may be written. *)
Definition b_put (b : bstate) (t : tree) : result bstate encode_error :=
  match t with
  | TArr _ | TDict _ =>
      match b_root b, b_stack b with
      | Some _, _ => Err MultiTopLevelCollection
      | None, [] => Ok (mk_b [] (Some t))
      | None, FDict _ None :: _ => Err DictWaitingForKey
      | None, f :: st => Ok (mk_b (add_child f t :: st) None)
      end
  | _ =>
      match b_stack b with
      | [] => Err CollectionNotOpen
      | FDict _ None :: _ => Err DictWaitingForKey
      | f :: st => Ok (mk_b (add_child f t :: st) (b_root b))
      end
  end.
(** The document the calls describe; copying adds what the source reads as.  [None] if a call
    is not allowed. *)
Fixpoint xb_run (b : bstate) (xs : list xop) : option bstate :=
  match xs with
  | [] => Some b
  | x :: xs' =>
      let r := match x with
               | XOp o => b_step b o
               | XCopy src v =>
                   match read_doc src v with Ret t => b_put b t | _ => Err CollectionNotOpen end
               end in
      match r with Ok b' => xb_run b' xs' | Err _ => None end
  end.

(** The calls that write the value [v] of [src] piece by piece, each scalar with the Rust type
    its Fleece type is read as. *)
Fixpoint value_calls (fuel : nat) (src : env) (v : val) : outcome (list op) :=
  match fuel with
  | O => Diverge
  | S f =>
      t <- value_type src v ;;
      match t with
      | TyNull => Ret [OpValue ENull]
      | TyUndefined => Ret [OpValue EUndef]
      | TyTrue => Ret [OpValue (EBool true)]
      | TyFalse => Ret [OpValue (EBool false)]
      | TyShort => z <- to_short src v ;; Ret [OpValue (EInt I16 z)]
      | TyInt => z <- to_int src v ;; Ret [OpValue (EInt I64 z)]
      | TyUnsignedInt => z <- to_unsigned_int src v ;; Ret [OpValue (EInt U64 z)]
      | TyFloat => x <- to_float src v ;; Ret [OpValue (EF32 x)]
      | TyDouble32 | TyDouble64 => x <- to_double src v ;; Ret [OpValue (EF64 x)]
      | TyString => s <- to_str src v ;; Ret [OpValue (EStr s)]
      | TyData => s <- to_data src v ;; Ret [OpValue (EData s)]
      | TyArray =>
          n <- arr_len src v ;;
          vs <- arr_elems src v ;;
          l <- mapM (value_calls f src) vs ;;
          Ret (OpBeginArray n :: concat l ++ [OpEndArray])
      | TyDict =>
          kvs <- dict_elems src v ;;
          l <- mapM (fun kv => cs <- value_calls f src (snd kv) ;; Ret (OpKey (fst kv) :: cs)) kvs ;;
          Ret (OpBeginDict :: concat l ++ [OpEndDict])
      | TyPointer => Panic
      end
  end.
Definition xcalls (x : xop) : outcome (list op) :=
  match x with
  | XOp o => Ret [o]
  | XCopy src v => value_calls (fuel_of src) src v
  end.

(** Trees whose scalars survive being written: small integers, no texts or keys of fewer
    than two bytes. *)
Fixpoint copyable (t : tree) : Prop :=
  match t with
  | TNull | TUndef | TBool _ => True
  | TInt z => -2048 <= z <= 2047
  | TF32 _ | TF64 _ => True
  | TStr s | TData s => 2 <= lenZ s
  | TArr l => (fix go l := match l with [] => True | x :: l' => copyable x /\ go l' end) l
  | TDict l =>
      (fix go l := match l with [] => True | kx :: l' => 2 <= lenZ (fst kx) /\ copyable (snd kx) /\ go l' end) l
  end.

(** A buffer of bytes of less than 2^60 bytes, with valid strings in its table of shared keys. *)
Definition src_ok (src : env) : Prop :=
  all_bytes (e_data src) /\ lenZ (e_data src) < 1152921504606846976 /\
  match e_sk src with Some tb => Forall (fun k => wf_enc (EStr k)) tb | None => True end.

(** A bound on the bytes the tree takes when it is written. *)
Fixpoint tree_size (t : tree) : Z :=
  match t with
  | TStr s | TData s => bytes_fleece_size (lenZ s) + 5
  | TArr l => 22 + fold_right (fun x n => tree_size x + n) 0 l
  | TDict l => 22 + fold_right (fun kx n => bytes_fleece_size (lenZ (fst kx)) + 5 + tree_size (snd kx) + n) 0 l
  | _ => 15
  end.

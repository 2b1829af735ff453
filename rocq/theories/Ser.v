(** Model of src/ser.rs: serializing through serde. *)
From Verif Require Import Prelude Utf8 Float SharedKeys Decode Encodable Encoder Scopes.

(** What a [Serialize] implementation hands to the serializer (serde's data model).  Chars are
    given by their UTF-8 bytes, names and texts by their bytes.  Sequences and maps are given
    with all their entries.  Not modelled: i128/u128 (serde refuses them for this serializer),
    implementations that stop half-way with an error of their own, and the difference between a
    known and an unknown sequence length (ser.rs:219-224: the capacity of a vector). *)
Inductive sval :=
| SBool (b : bool)
| SInt (t : ity) (z : Z)
| SF32 (bits : Z)
| SF64 (bits : Z)
| SChar (s : list Z)
| SStr (s : list Z)
| SBytes (s : list Z)
| SNone
| SSome (v : sval)
| SUnit
| SUnitStruct
| SUnitVariant (name : list Z)
| SNewtype (v : sval)
| SNewtypeVariant (name : list Z) (v : sval)
| SSeq (l : list sval)
| STuple (l : list sval)
| STupleStruct (l : list sval)
| STupleVariant (name : list Z) (l : list sval)
| SMap (l : list (sval * sval))
| SStruct (l : list (list Z * sval))
| SStructVariant (name : list Z) (l : list (list Z * sval)).

(** ser.rs:297-310 [KeyType] *)
Inductive key_kind :=
| KBool | KInt | KFloat | KBytes | KUnit | KOption | KEnum | KStruct | KTuple | KSequence | KMap.

(** ser.rs:61-64 [SerializeError], and error.rs:13-21 [Error] as far as serializing returns it *)
Inductive ser_error :=
| SeEncode (x : encode_error)
| SeKeyNotString (k : key_kind)
| SeValueNotCollection.

Definition sres : Type := outcome (enc * result unit ser_error).
(** [map_err(Error::Encode)], or [?] on an [EncodeError] *)
Definition lift (m : eres) : sres :=
  r <- m ;; Ret (fst r, match snd r with Ok u => Ok u | Err x => Err (SeEncode x) end).
(** [?] *)
Definition sseq (m : sres) (k : enc -> sres) : sres :=
  r <- m ;;
  match snd r with
  | Ok _ => k (fst r)
  | Err _ => Ret r
  end.
Definition sfor {A} (body : enc -> A -> sres) : enc -> list A -> sres :=
  fix go (e : enc) (l : list A) : sres :=
    match l with
    | [] => Ret (e, Ok tt)
    | x :: l' => sseq (body e x) (fun e' => go e' l')
    end.

(** ser.rs:312-505 [MapKeySerializer] *)
Fixpoint ser_key (c : cfg) (e : enc) (k : sval) : sres :=
  let no x := Ret (e, Err (SeKeyNotString x)) in
  match k with
  | SStr s | SChar s => lift (write_key c e s)
  | SSome v | SNewtype v => ser_key c e v
  | SBool _ => no KBool
  | SInt _ _ => no KInt
  | SF32 _ | SF64 _ => no KFloat
  | SBytes _ => no KBytes
  | SNone => no KOption
  | SUnit | SUnitStruct => no KUnit
  | SUnitVariant _ | SNewtypeVariant _ _ | STupleVariant _ _ | SStructVariant _ _ => no KEnum
  | SSeq _ => no KSequence
  | STuple _ | STupleStruct _ => no KTuple
  | SMap _ => no KMap
  | SStruct _ => no KStruct
  end.

(** ser.rs:92-279 [Serializer], :281-295, :507-611 its collection halves.  ([serialize_i64] is what serde
    calls for isize, [serialize_u64] for usize.) *)
Fixpoint ser (c : cfg) (e : enc) (v : sval) : sres :=
  let value x := lift (write_value c e x) in
  let seq (l : list sval) :=
    sseq (lift (begin_array e (lenZ l))) (fun e1 =>
    sseq (sfor (ser c) e1 l) (fun e2 => lift (end_array c e2))) in
  let field (e : enc) (f : list Z * sval) :=
    sseq (lift (write_key c e (fst f))) (fun e' => ser c e' (snd f)) in
  let named (cap : Z) (name : list Z) (inner : enc -> sres) :=
    sseq (lift (begin_array e cap)) (fun e1 =>
    sseq (lift (write_value c e1 (EStr name))) (fun e2 =>
    sseq (inner e2) (fun e3 => lift (end_array c e3)))) in
  match v with
  | SBool b => value (EBool b)
  | SInt Isize z => value (EInt I64 z)
  | SInt Usize z => value (EInt U64 z)
  | SInt t z => value (EInt t z)
  | SF32 b => value (EF32 b)
  | SF64 b => value (EF64 b)
  | SChar s | SStr s => value (EStr s)
  | SBytes s => value (EData s)
  | SNone | SUnitStruct => value ENull
  | SUnit => value EUndef
  | SSome w | SNewtype w => ser c e w
  | SUnitVariant name => named 1 name (fun e2 => Ret (e2, Ok tt))
  | SNewtypeVariant name w => named 2 name (fun e2 => ser c e2 w)
  | SSeq l | STuple l | STupleStruct l => seq l
  | STupleVariant name l =>
      named 3 name (fun e2 =>
        sseq (lift (begin_array e2 (lenZ l))) (fun e3 =>
        sseq (sfor (ser c) e3 l) (fun e4 => lift (end_array c e4))))
  | SMap l =>
      sseq (lift (begin_dict e)) (fun e1 =>
      sseq (sfor (fun e' kv => sseq (ser_key c e' (fst kv)) (fun e'' => ser c e'' (snd kv))) e1 l) (fun e2 =>
        lift (end_dict c e2)))
  | SStruct l =>
      sseq (lift (begin_dict e)) (fun e1 => sseq (sfor field e1 l) (fun e2 => lift (end_dict c e2)))
  | SStructVariant name l =>
      named (lenZ l + 2) name (fun e2 =>
        sseq (lift (begin_dict e2)) (fun e3 => sseq (sfor field e3 l) (fun e4 => lift (end_dict c e4))))
  end.

(** The error conversion of ser.rs:30-36, :53-58 *)
Definition top_error (x : ser_error) : ser_error :=
  match x with SeEncode CollectionNotOpen => SeValueNotCollection | _ => x end.

(** ser.rs:24-37 [to_bytes] *)
Definition to_bytes (c : cfg) (v : sval) : outcome (result (list Z) ser_error) :=
  r <- ser c enc_new v ;;
  match snd r with
  | Ok _ => bs <- finish c (fst r) ;; Ret (Ok bs)
  | Err x => Ret (Err (top_error x))
  end.

(** ser.rs:45-59 [to_bytes_with_shared_keys]: the scope made (its data at [start]) and the
    world afterwards. *)
Definition to_bytes_with_shared_keys (c : cfg) (w : world) (start : Z) (v : sval)
  : outcome (result nat ser_error) * world :=
  match ser c (set_shared_keys enc_new []) v with
  | Ret r =>
      match snd r with
      | Ok _ => let '(o, w') := finish_scoped c w start (fst r) in (id <- o ;; Ret (Ok id), w')
      | Err x => (Ret (Err (top_error x)), w)
      end
  | Panic => (Panic, w)
  | UB => (UB, w)
  | Diverge => (Diverge, w)
  end.

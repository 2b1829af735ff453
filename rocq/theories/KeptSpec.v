(** Specification: what is left of a value once it is in a document of at most 16383 bytes. *)
From Verif Require Import Prelude Utf8 Float SharedKeys Decode Encodable Encoder BuilderSpec.

(** The number that is left of a number: of signed ones the low 16 bits, read as an i16; of
    unsigned ones above 2047 the low [k] bytes, where [k] is 8 less one for every eight trailing
    zero bits begun.  [None]: the number cannot be written. *)
Definition kept_int (t : ity) (z : Z) : option Z :=
  match t with
  | I8 | I16 | I32 | I64 | Isize =>
      let low := (z + 32768) mod 65536 - 32768 in
      if (-2048 <=? low) && (low <=? 2047) then Some low else None
  | U8 | U16 => if z <=? 2047 then Some z else None
  | U32 | U64 | Usize =>
      if z <=? 2047 then Some z
      else let k := 8 - (ctz64 z + 7) / 8 in if k <=? 0 then None else Some (z mod 256 ^ k)
  end.

(** The value that is left of a value: a text of at most one byte becomes the number made of its
    length and that byte, an empty blob becomes zero, a blob of one byte makes the document
    invalid ([None]), all else stays. *)
Fixpoint kept (v : encodable) : option encodable :=
  match v with
  | EInt t z => option_map (EInt t) (kept_int t z)
  | EStr [] | EData [] => Some (EInt I64 0)
  | EStr [b] => Some (EInt I64 (256 + b))
  | EData [_] => None
  | ESome w => kept w
  | _ => Some v
  end.

(** The call that would have described what is left. *)
Definition kept_op (o : op) : op :=
  match o with
  | OpValue v => OpValue match kept v with Some w => w | None => v end
  | _ => o
  end.

(** Arguments a Rust program can build, values of which something is left, keys of at least two
    bytes. *)
Definition small_op (o : op) : Prop :=
  match o with
  | OpKey k => wf_enc (EStr k) /\ 2 <= lenZ k
  | OpValue v => wf_enc v /\ kept v <> None
  | OpBeginArray n => n * 4 < two63
  | _ => True
  end.

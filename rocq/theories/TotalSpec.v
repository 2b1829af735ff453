(** Specification: the calls that an encoder below the size limit always answers. *)
From Verif Require Import Prelude Utf8 Float SharedKeys Decode Encodable Encoder BuilderSpec.

(** The values that can be written at all: for the others the integer code panics (u16 above 2047;
    in debug builds u64 multiples of 2^57) or never returns (signed integers whose low 16 bits, read as
    an i16, are outside the short range). *)
Fixpoint can_write (dbg : bool) (v : encodable) : bool :=
  match v with
  | EInt t z =>
      match t with
      | I64 | I32 | Isize | I16 => let low := wrap_i16 z in (-2048 <=? low) && (low <=? 2047)
      | I8 | U8 | U32 => true
      | U16 => z <=? 2047
      | U64 | Usize => (z <=? 2047) || negb dbg || negb (z mod 2 ^ 57 =? 0)
      end
  | ESome w => can_write dbg w
  | _ => true
  end.

(** Calls with arguments a Rust program can build. *)
Definition answered_op (dbg : bool) (o : op) : Prop :=
  match o with
  | OpKey k => wf_enc (EStr k)
  | OpValue v => wf_enc v /\ can_write dbg v = true
  | OpBeginArray n => n * 4 < two63
  | _ => True
  end.

(** Values a Rust program can build, whether the encoder can write them or not. *)
Definition written_op (o : op) : Prop := match o with OpValue v => wf_enc v | _ => True end.

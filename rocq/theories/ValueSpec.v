(** Specification: writing values into a flat array and reading one of them back. *)
From Verif Require Import Prelude Utf8 Float SharedKeys Decode Read Encodable Encoder BuilderSpec.

(** The calls that write the array [vs]. *)
Definition arr_ops (vs : list encodable) : list op := OpBeginArray 0 :: map OpValue vs ++ [OpEndArray].

(** Writing the array [vs] succeeds, the finished document is accepted, has the right length,
    and the value [x] found at index [i] satisfies [P], in debug and release builds, wherever
    the bytes are placed in memory. *)
Definition reads_element (c : cfg) (vs : list encodable) (i : Z) (P : env -> val -> Prop) : Prop :=
  exists e' bs, enc_run c enc_new (arr_ops vs) = Ret (e', repeat (Ok tt) (S (S (length vs)))) /\
    finish c e' = Ret bs /\
    forall dbg base, addressable base bs ->
    let m := mk_env dbg base bs None in
    exists r x, from_bytes m = Ret (Ok r) /\ from_bytes_unchecked m = Ret r /\ as_array m r = Ret (Some r) /\
      arr_len m r = Ret (lenZ vs) /\ arr_get m r i = Ret (Some x) /\ P m x.

(** What the encoder really stores for a value: for most values the value itself.  Signed
    integers keep only their low 16 bits.  Unsigned ones beyond 2047 keep their low [k] bytes,
    where [k] depends on the number of trailing zero bits.  [None]: the call does not return a
    usable result. *)
Fixpoint stored_value (v : encodable) : option tree :=
  match v with
  | EInt t z =>
      match t with
      | I8 | I16 | I32 | I64 | Isize =>
          let s := wrap_i16 z in if (-2048 <=? s) && (s <=? 2047) then Some (TInt s) else None
      | U8 | U16 => if z <=? 2047 then Some (TInt z) else None
      | U32 | U64 | Usize =>
          if z <=? 2047 then Some (TInt z)
          else let k := 8 - (ctz64 z + 7) / 8 in
               if k <=? 0 then None else Some (TInt (z mod 256 ^ k))
      end
  | ESome w => stored_value w
  | _ => Some (tree_of v)
  end.

(** Bytes a value takes outside the array's own slots. *)
Definition outside (v : encodable) : Z :=
  match to_sized_value v with
  | Some _ => 0
  | None => fleece_size v + fleece_size v mod 2
  end.
Definition content (vs : list encodable) : Z := fold_right (fun v n => outside v + n) 0 vs.

(** A slot of two bytes can point back at most 16383 bytes.  [d] is the distance from the
    place of the next value stored outside to the next slot. *)
Fixpoint reach (d : Z) (vs : list encodable) : bool :=
  match vs with
  | [] => true
  | v :: r =>
      match to_sized_value v with
      | Some _ => reach (d + 2) r
      | None => (d <=? MAX_NARROW) && reach (d + 2 - outside v) r
      end
  end.
(** Bytes of an array's header. *)
Definition header (n : Z) : Z := hdr_fleece_size n + hdr_fleece_size n mod 2.

(** The arrays the encoder writes correctly: within the pointer limit, and either the values
    stored outside take more than 16383 bytes, or there are no inline texts and every value is
    within reach of its slot of two bytes. *)
Definition flat_ok (vs : list encodable) : Prop :=
  content vs + 4 * lenZ vs + 22 <= MAX_WIDE /\
  (MAX_NARROW < content vs \/
   (forallb no_short_text vs = true /\ reach (content vs + header (lenZ vs)) vs = true)).
Definition writable (vs : list encodable) : Prop :=
  Forall wf_enc vs /\ Forall (fun v => stored_value v <> None) vs /\ flat_ok vs.

(** Two bytes that hold the 12-bit short [n]. *)
Definition holds_short_value (e : env) (v : val) (n : Z) : Prop :=
  vbyte e v 0 = Ret ((n mod 4096) / 256) /\ vbyte e v 1 = Ret (n mod 256).

(** The signed number in the little-endian two's complement bytes [bs]. *)
Definition signed_le (bs : list Z) : Z :=
  let u := le_val bs in let m := 256 ^ lenZ bs in if u <? m / 2 then u else u - m.

(** The types with a numeric value. *)
Definition is_number (t : vtype) : bool :=
  match t with
  | TyShort | TyInt | TyUnsignedInt | TyFloat | TyDouble32 | TyDouble64 => true
  | _ => false
  end.

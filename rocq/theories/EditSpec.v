(** Specification: writing a mutable collection with an encoder.  The library has no call for
    it; this is the program its users write. *)
From Verif Require Import Prelude Utf8 Float SharedKeys Decode Read Encodable Encoder BuilderSpec CopySpec
  Mutable MutableSpec.

(** The calls made on the encoder for the slot [s]: [write_fleece] for a value, wherever its
    bytes are in memory; for an array [begin_array] with its length, the calls for each element
    of its iterator, and [end_array]; for a dict [begin_dict], for each entry of its iterator
    [write_key] and the calls for the value, and [end_dict]. *)
Inductive exports (dbg : bool) : slot -> list xop -> Prop :=
| ex_inline bs base : exports dbg (SInline bs) [XCopy (mk_env dbg base bs None) (V 0 (lenZ bs))]
| ex_pointer bs base : exports dbg (SPointer bs) [XCopy (mk_env dbg base bs None) (V 0 (lenZ bs))]
| ex_arr l xss : Forall2 (exports dbg) (ma_elems l) xss ->
    exports dbg (SArr l) (XOp (OpBeginArray (ma_len l)) :: concat xss ++ [XOp OpEndArray])
| ex_dict m sk xss : Forall2 (fun kx xs => exports dbg (snd kx) xs) (md_elems m sk) xss ->
    exports dbg (SDict m sk)
      (XOp OpBeginDict ::
       concat (map (fun p => XOp (OpKey (fst (fst p))) :: snd p) (combine (md_elems m sk) xss)) ++
       [XOp OpEndDict]).

(** Trees made of values a Rust program can hold and the encoder writes correctly into a small
    document: integers from -2048 to 2047, texts, blobs and keys of at least two bytes. *)
Inductive writable : tree -> Prop :=
| wr_null : writable TNull
| wr_undef : writable TUndef
| wr_bool b : writable (TBool b)
| wr_int z : -2048 <= z <= 2047 -> writable (TInt z)
| wr_f32 b : writable (TF32 b)
| wr_f64 b : wf_enc (EF64 b) -> writable (TF64 b)
| wr_str s : wf_enc (EStr s) -> 2 <= lenZ s -> writable (TStr s)
| wr_data s : wf_enc (EData s) -> 2 <= lenZ s -> writable (TData s)
| wr_arr l : Forall writable l -> writable (TArr l)
| wr_dict l : Forall (fun kx => (wf_enc (EStr (fst kx)) /\ 2 <= lenZ (fst kx)) /\ writable (snd kx)) l ->
    writable (TDict l).

(** The shared keys the encoder is given before the first call, if any. *)
Definition with_keys (sk : option shared_keys) (xs : list xop) : list xop :=
  match sk with Some t => XOp (OpSetSharedKeys t) :: xs | None => xs end.

(** With shared keys a key of 16 bytes would be cut. *)
Definition fits_keys (sk : option shared_keys) (t : tree) : Prop :=
  match sk with Some _ => keys_all (fun k => lenZ k <> 16) t | None => True end.

(** Two paths that part: neither leads through the place the other leads to. *)
Inductive apart : list mstep -> list mstep -> Prop :=
| ap_here s s' p q : s <> s' -> apart (s :: p) (s' :: q)
| ap_next s p q : apart p q -> apart (s :: p) (s :: q).

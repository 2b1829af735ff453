(** Specification of the [fleece!] macro: the document a literal describes. *)
From Verif Require Import Prelude Utf8 Float SharedKeys Decode Read Encodable Encoder BuilderSpec Macro.

Fixpoint lit_tree (x : lit) : tree :=
  match x with
  | LitVal v => tree_of v
  | LitDict l => TDict (map (fun kv => (fst kv, lit_tree (snd kv))) l)
  | LitArr l => TArr (map lit_tree l)
  end.

(** The calls that build it. *)
Fixpoint lit_ops (x : lit) : list op :=
  match x with
  | LitVal v => [OpValue v]
  | LitDict l => OpBeginDict :: flat_map (fun kv => OpKey (fst kv) :: lit_ops (snd kv)) l ++ [OpEndDict]
  | LitArr l => OpBeginArray 10 :: flat_map lit_ops l ++ [OpEndArray]
  end.

(** Keys and values a Rust program can contain. *)
Definition rust_op (o : op) : Prop :=
  match o with
  | OpKey k => wf_enc (EStr k)
  | OpValue v => wf_enc v
  | OpBeginArray n => n * 4 < two63
  | _ => True
  end.
Definition rust_lit (x : lit) : Prop := Forall rust_op (lit_ops x).
(** And such that the encoder writes them correctly (see C02–C06). *)
Definition good_lit (x : lit) : Prop := Forall good_op (lit_ops x).

(** A user's work with one key table over time: documents are written one after the other, each
    encoder being given the table the previous one ended with ([Encoder::set_shared_keys],
    encoder/mod.rs:181-183; the table comes back in the scope, :288-292, scope.rs:27-29). *)
From Verif Require Import Prelude Utf8 Float SharedKeys Decode Read Encodable Encoder BuilderSpec LayoutSpec PathSpec.

(** A document: the calls that wrote it, what they describe, and the bytes. *)
Record sdoc := mk_sdoc { sd_ops : list op; sd_tree : tree; sd_bytes : list Z }.

(** The document was written with the table [t0], without an error, and left the table [t1]. *)
Definition wrote (c : cfg) (t0 : shared_keys) (d : sdoc) (t1 : shared_keys) : Prop :=
  exists e' rs, enc_run c enc_new (OpSetSharedKeys t0 :: sd_ops d) = Ret (e', rs) /\ Forall (eq (Ok tt)) rs /\
    (forall u, ~ In (OpSetSharedKeys u) (sd_ops d)) /\
    finish c e' = Ret (sd_bytes d) /\ en_sk e' = Some t1 /\
    b_finish (fst (b_run b_init (sd_ops d))) = Some (sd_tree d).

(** The conditions of C34 on a document: values the encoder handles, no key of 16 bytes, no key
    twice in a dict, a layout that works out. *)
Definition fit (c : cfg) (t0 : shared_keys) (d : sdoc) : Prop :=
  Forall good_op (sd_ops d) /\ (forall k, In (OpKey k) (sd_ops d) -> lenZ k <> 16) /\ distinct (sd_tree d) /\
  layout_ok (c_ua c) 0 (OpSetSharedKeys t0 :: sd_ops d) /\ ops_size (sd_ops d) <= MAX_WIDE.

(** The documents [ds], in this order, took the table from [t0] to [tn]. *)
Inductive series (c : cfg) : shared_keys -> list sdoc -> shared_keys -> Prop :=
| series_nil t : series c t [] t
| series_cons t0 d t1 ds tn :
    wrote c t0 d t1 -> fit c t0 d -> series c t1 ds tn -> series c t0 (d :: ds) tn.

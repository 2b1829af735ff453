(** No key is written twice into the same dict. *)
From Verif Require Import Prelude Utf8 Float SharedKeys Decode Read Encodable Encoder BuilderSpec.

(** The keys written into an open dict so far, the one waiting for its value included. *)
Definition frame_keys (f : frame) : list (list Z) :=
  match f with
  | FArr _ => []
  | FDict l p => map fst l ++ match p with Some k => [k] | None => [] end
  end.
Fixpoint no_repeats (b : bstate) (ops : list op) : Prop :=
  Forall (fun f => NoDup (frame_keys f)) (b_stack b) /\
  match ops with
  | [] => True
  | o :: ops' => no_repeats (match b_step b o with Ok b' => b' | Err _ => b end) ops'
  end.
(** Keys are Rust strings. *)
Definition text_keys (ops : list op) : Prop :=
  forall k, In (OpKey k) ops -> wf_enc (EStr k).
(** The same configuration with another sorting routine. *)
Definition with_sort (c : cfg) (s : list delem -> list delem) : cfg := mk_cfg (c_dbg c) (c_ua c) s.

(** Specification: debug builds (overflow checks and debug assertions on) and release builds. *)
From Verif Require Import Prelude SharedKeys Decode Encoder Alloced Mutable.

(** Whatever [d] returns, [r] returns too.  Nothing is said when [d] panics. *)
Definition agrees {A} (d r : outcome A) : Prop := forall x, d = Ret x -> r = Ret x.

(** The same memory, and the same encoder environment, in a release build. *)
Definition release (e : env) : env := mk_env false (e_base e) (e_data e) (e_sk e).
Definition release_cfg (c : cfg) : cfg := mk_cfg false (c_ua c) (c_sort c).
Definition release_alloced (a : alloced) : alloced := mk_alloced (release (al_env a)) (al_val a).

(** A call on a mutable collection with its argument in a release build. *)
Definition release_mop (o : mop) : mop :=
  match o with
  | MPushFleece src v => MPushFleece (release src) v
  | MSetFleece i src v => MSetFleece i (release src) v
  | _ => o
  end.
Definition release_ops (ops : list (list mstep * mop)) : list (list mstep * mop) :=
  map (fun po => (fst po, release_mop (snd po))) ops.

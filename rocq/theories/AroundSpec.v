(** Specification: a document with other bytes around it. *)
From Verif Require Import Prelude SharedKeys Decode.

(** The same memory, seen as a larger buffer: the bytes of [P] lie just before the buffer, those
    of [Q] just after it.  The document itself does not move. *)
Definition around (P Q : list Z) (e : env) : env :=
  mk_env (e_dbg e) (e_base e - lenZ P) (P ++ e_data e ++ Q) (e_sk e).
(** A value of the document, with its position counted from the start of the larger buffer. *)
Definition shifted (P : list Z) (v : val) : val := V (v_pos v + lenZ P) (v_len v).
Definition shifted_iter (P : list Z) (it : aiter) : aiter :=
  mk_aiter (option_map (shifted P) (it_next it)) (it_width it) (it_index it) (it_len it).

(** Whatever [m] returns, [m'] returns too, up to [g]. *)
Definition same_by {A B} (g : A -> B) (m : outcome A) (m' : outcome B) : Prop :=
  forall x, m = Ret x -> m' = Ret (g x).
Definition same {A} (m m' : outcome A) : Prop := same_by (fun x => x) m m'.

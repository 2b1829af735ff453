(** Model of the [fleece!] macro of src/lib.rs: a document written as a literal. *)
From Verif Require Import Prelude SharedKeys Decode Encodable Encoder Alloced.

(** lib.rs:42-110: what may stand in the macro: an expression of an [Encodable] type, a dict or an
    array.  Keys are string literals.  Simplification: an array directly inside an array can be
    written here; in Rust the rule for it (lib.rs:98-102) calls [begin_array] without its argument
    and does not compile. *)
Inductive lit :=
| LitVal (v : encodable)
| LitDict (l : list (list Z * lit))
| LitArr (l : list lit).

(** [.unwrap_unchecked()] and [let Ok(_) = … else unreachable_unchecked()]: reaching them with an
    error is undefined behaviour. *)
Definition unchecked_call (c : cfg) (e : enc) (o : op) : outcome enc :=
  r <- enc_step c e o ;;
  match snd r with
  | Ok _ => Ret (fst r)
  | Err _ => UB
  end.

(** lib.rs:67-110, the [insert] and [push] rules. *)
Fixpoint lit_write (c : cfg) (e : enc) (x : lit) : outcome enc :=
  match x with
  | LitVal v => unchecked_call c e (OpValue v)
  | LitDict l =>
      e1 <- unchecked_call c e OpBeginDict ;;
      e2 <- (fix inserts (e : enc) (l : list (list Z * lit)) : outcome enc :=
               match l with
               | [] => Ret e
               | kv :: l' =>
                   e1 <- unchecked_call c e (OpKey (fst kv)) ;;
                   e2 <- lit_write c e1 (snd kv) ;;
                   inserts e2 l'
               end) e1 l ;;
      unchecked_call c e2 OpEndDict
  | LitArr l =>
      e1 <- unchecked_call c e (OpBeginArray 10) ;;
      e2 <- (fix pushes (e : enc) (l : list lit) : outcome enc :=
               match l with
               | [] => Ret e
               | x :: l' => e1 <- lit_write c e x ;; pushes e1 l'
               end) e1 l ;;
      unchecked_call c e2 OpEndArray
  end.

(** lib.rs:44-53 [fleece! { … }] and lib.rs:55-65 [fleece! [ … ]]; the value owns its bytes, at
    address [base]. *)
Definition fleece_dict (c : cfg) (base : Z) (l : list (list Z * lit)) : outcome alloced :=
  e <- lit_write c enc_new (LitDict l) ;;
  r <- finish_value c base e ;;
  d <- alloced_to_dict (mk_alloced (fst r) (snd r)) ;;
  match d with Some a => Ret a | None => UB end.
Definition fleece_array (c : cfg) (base : Z) (l : list lit) : outcome alloced :=
  e <- lit_write c enc_new (LitArr l) ;;
  r <- finish_value c base e ;;
  d <- alloced_to_array (mk_alloced (fst r) (snd r)) ;;
  match d with Some a => Ret a | None => UB end.

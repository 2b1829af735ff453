(** The entries of a dict, as the views of the API should show them. *)
From Verif Require Import Prelude SharedKeys Decode ReadSpec.

(** [k] calls of [next] on a dict iterator, collecting what they return; stops at the first
    [None]. *)
Fixpoint dict_run (k : nat) (e : env) (it : aiter) : outcome (list (list Z * val) * aiter) :=
  match k with
  | O => Ret ([], it)
  | S k' =>
      r <- dict_iter_next e it ;;
      match fst r with
      | None => Ret ([], snd r)
      | Some x => q <- dict_run k' e (snd r) ;; Ret (x :: fst q, snd q)
      end
  end.

(** An entry is the text of its key, if it has one, and its value.  The entries up to the first
    key without a text. *)
Fixpoint known (es : list (option (list Z) * val)) : list (list Z * val) :=
  match es with
  | (Some k, x) :: es' => (k, x) :: known es'
  | _ => []
  end.

(** [es] are the entries stored in the dict [v]. *)
Definition entries (e : env) (v : val) (es : list (option (list Z) * val)) : Prop :=
  dict_len e v = Ret (lenZ es) /\
  forall j k x, nth_error es j = Some (k, x) ->
    exists kv, arr_get e v (2 * Z.of_nat j) = Ret (Some kv) /\ key_text e (e_sk e) kv = Ret k /\
      arr_get e v (2 * Z.of_nat j + 1) = Ret (Some x).

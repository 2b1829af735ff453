(** Model of the work of a dict lookup: src/value/dict.rs:111-145 with the entries it looks at
    recorded. *)
From Verif Require Import Prelude Utf8 Float SharedKeys Decode.

(** dict.rs:115-145, the loop of [_get] (as [dict_search] in Decode.v) with the indices of the
    entries compared, in order.  The rounds are not limited by a constant here: [fuel] is any
    number. *)
Fixpoint search_trace (fuel : nat) (e : env) (v : val) (k : dkey) (left right size : Z)
  : outcome (option val * list Z) :=
  match fuel with
  | O => Diverge
  | S f =>
      if left <? right then
        let mid := left + size / 2 in
        p <- dict_pair e v mid ;;
        wide <- arr_is_wide e v ;;
        c <- dict_key_cmp e k (fst p) wide ;;
        let left' := match c with Gt => mid + 1 | _ => left end in
        let right' := match c with Lt => mid | _ => right end in
        match c with
        | Eq => Ret (Some (snd p), [mid])
        | _ =>
            r <- search_trace f e v k left' right' (right' - left') ;;
            Ret (fst r, mid :: snd r)
        end
      else Ret (None, [])
  end.
(** dict.rs:111-114 [_get] *)
Definition get_key_trace (fuel : nat) (e : env) (v : val) (k : dkey) : outcome (option val * list Z) :=
  n <- dict_len e v ;; search_trace fuel e v k 0 n n.
(** dict.rs:89-107 [get], [get_with_shared_keys] *)
Definition get_trace (fuel : nat) (e : env) (v : val) (key : list Z) : outcome (option val * list Z) :=
  k <- encode_key e v key None ;; get_key_trace fuel e v k.
Definition get_trace_sk (fuel : nat) (e : env) (v : val) (key : list Z) (sk : shared_keys) : outcome (option val * list Z) :=
  k <- encode_key e v key (Some sk) ;; get_key_trace fuel e v k.

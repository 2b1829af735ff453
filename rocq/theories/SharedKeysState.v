(** Model of the saving and restoring of a key table, src/shared_keys.rs:71-106. *)
From Verif Require Import Prelude Utf8 SharedKeys Decode Encodable Encoder.

(** shared_keys.rs:98-106 [write_state].  [None]: a call of the encoder failed. *)
Fixpoint write_keys (c : cfg) (e : enc) (t : shared_keys) : outcome (enc * option unit) :=
  match t with
  | [] =>
      r <- end_array c e ;;                                         (* line 105 *)
      Ret (fst r, match snd r with Ok _ => Some tt | Err _ => None end)
  | k :: t' =>
      r <- write_value c e (EStr k) ;;                              (* line 103 *)
      match snd r with
      | Ok _ => write_keys c (fst r) t'
      | Err _ => Ret (fst r, None)
      end
  end.
Definition write_state (c : cfg) (e : enc) (t : shared_keys) : outcome (enc * option unit) :=
  r <- begin_array e (lenZ t) ;;                                    (* line 99 *)
  match snd r with
  | Err _ => Ret (fst r, None)
  | Ok _ => write_keys c (fst r) t
  end.

(** shared_keys.rs:90-96 [get_state_bytes]; the result of [write_state] is ignored. *)
Definition get_state_bytes (c : cfg) (t : shared_keys) : outcome (list Z) :=
  r <- write_state c enc_new t ;; finish c (fst r).

(** shared_keys.rs:82-86, the loop over the array. *)
Fixpoint state_loop (fuel : nat) (ua : Z -> bool) (m : env) (it : aiter) (t : shared_keys)
  : outcome (option shared_keys) :=
  match fuel with
  | O => Diverge
  | S f =>
      r <- iter_next m it ;;
      match fst r with
      | None => Ret (Some t)
      | Some x =>
          ty <- value_type m x ;;
          if e_dbg m && negb (vtype_eqb ty TyString) then Panic      (* line 83, debug builds *)
          else
            k <- to_str m x ;;
            match encode_and_insert ua t k with
            | (_, None) => Ret None
            | (t', Some _) => state_loop f ua m (snd r) t'
            end
      end
  end.

(** shared_keys.rs:79-88 [from_state_value] *)
Definition from_state_value (ua : Z -> bool) (m : env) (v : val) : outcome (option shared_keys) :=
  a <- as_array m v ;;
  match a with
  | None => Ret None
  | Some arr => it <- arr_iter m arr ;; state_loop (S (length (e_data m))) ua m it []
  end.

(** shared_keys.rs:73-76 [from_state_bytes] *)
Definition from_state_bytes (ua : Z -> bool) (m : env) : outcome (option shared_keys) :=
  r <- from_bytes m ;;
  match r with
  | Err _ => Ret None
  | Ok v => from_state_value ua m v
  end.

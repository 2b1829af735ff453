(** Vocabulary for the properties about reading arbitrary input. *)
From Verif Require Import Prelude SharedKeys Decode.

(** The buffer holds bytes and lies where a user-space process on a 64-bit machine may have
    it: above the first 2 GiB and below 2^63. *)
Definition wf_env (e : env) : Prop :=
  all_bytes (e_data e) /\ 2147483648 <= e_base e /\ e_base e + lenZ (e_data e) < two63.

(** Neither an out-of-bounds read nor non-termination.  (A panic is neither.) *)
Definition safe {A} (m : outcome A) : Prop := m <> UB /\ m <> Diverge.

(** A slice that lies inside the buffer. *)
Definition inslice (e : env) (v : val) : Prop :=
  0 <= v_pos v /\ 0 <= v_len v /\ v_pos v + v_len v <= lenZ (e_data e).

(** No length prefix anywhere in the buffer is 2^59 or more. *)
Definition modest (e : env) : Prop :=
  forall v r x, inslice e v -> varint_at e v 2 = Ret (r, x) -> x < 576460752303423488.

(** The same buffer read by a debug build. *)
Definition with_debug (e : env) : env := mk_env true (e_base e) (e_data e) (e_sk e).

(** Overflow checks are on (debug build), or there is no huge count in the buffer, or a debug
    build would get through the validation without an overflow panic. *)
Definition checked (e : env) : Prop :=
  e_dbg e = true \/ modest e \/ from_bytes (with_debug e) <> Panic.

(** One step of navigation through the public API: indexing below [len], iteration, the two
    forms of dict lookup, the first entry of a dict. *)
Inductive step_to (e : env) : val -> val -> Prop :=
| st_get a n i x :
    value_type e a = Ret TyArray -> arr_len e a = Ret n -> 0 <= i < n ->
    arr_get e a i = Ret (Some x) -> step_to e a x
| st_iter a xs x :
    value_type e a = Ret TyArray -> arr_elems e a = Ret xs -> In x xs -> step_to e a x
| st_dict_iter d kvs k x :
    value_type e d = Ret TyDict -> dict_elems e d = Ret kvs -> In (k, x) kvs -> step_to e d x
| st_dict_get d k x :
    value_type e d = Ret TyDict -> dict_get e d k = Ret (Some x) -> step_to e d x
| st_dict_get_sk d k sk x :
    value_type e d = Ret TyDict -> dict_get_sk e d k sk = Ret (Some x) -> step_to e d x
| st_dict_first d k x :
    value_type e d = Ret TyDict -> dict_first e d = Ret (Some (k, x)) -> step_to e d x
| st_dict_first_key d k x :
    value_type e d = Ret TyDict -> dict_first e d = Ret (Some (k, x)) -> step_to e d k.

(** Any number of steps. *)
Inductive reach (e : env) : val -> val -> Prop :=
| reach_refl v : reach e v v
| reach_step a b c : reach e a b -> step_to e b c -> reach e a c.

(** [k] calls of [Iter::next], collecting what they return; stops at the first [None]. *)
Fixpoint iter_run (k : nat) (e : env) (it : aiter) : outcome (list val * aiter) :=
  match k with
  | O => Ret ([], it)
  | S k' =>
      r <- iter_next e it ;;
      match fst r with
      | None => Ret ([], snd r)
      | Some x => q <- iter_run k' e (snd r) ;; Ret (x :: fst q, snd q)
      end
  end.

(** The text of a dict key as stored: through the shared key table if it is a small integer,
    otherwise as a string. *)
Definition key_text (e : env) (sk : option shared_keys) (kv : val) : outcome (option (list Z)) :=
  t <- value_type e kv ;;
  if vtype_eqb t TyShort then
    match sk with
    | Some tb => i <- to_unsigned_short e kv ;; Ret (sk_decode tb i)
    | None => Ret None
    end
  else s <- to_str e kv ;; Ret (Some s).

(** The bytes a value occupies from its own position on: header, and payload or slots.  The
    payload of a text or blob is what [to_data] hands out; nothing is shorter than two bytes. *)
Definition extent (e : env) (v : val) : outcome Z :=
  t <- value_type e v ;;
  match t with
  | TyArray | TyDict =>
      wide <- arr_is_wide e v ;; n <- arr_len e v ;; fp <- first_pos e v ;;
      Ret (fp + n * width_of wide)
  | TyInt | TyUnsignedInt => b <- vbyte e v 0 ;; Ret (2 + b mod 8)
  | TyFloat | TyDouble32 => Ret 6
  | TyDouble64 => Ret 10
  | TyString | TyData => s <- get_data e v ;; Ret (Z.max 2 (v_pos s + v_len s - v_pos v))
  | _ => Ret 2
  end.

(** The calls of the API on a value: none of them reads outside the buffer or runs forever.
    Indexing is limited to indices below [len]. *)
Definition in_bounds (e : env) (v : val) : Prop :=
  safe (value_type e v) /\ safe (to_bool e v) /\ safe (to_short e v) /\ safe (to_unsigned_short e v) /\
  safe (to_int e v) /\ safe (to_unsigned_int e v) /\ safe (to_float e v) /\ safe (to_double e v) /\
  safe (to_str e v) /\ safe (to_data e v) /\
  (value_type e v = Ret TyArray ->
     safe (arr_len e v) /\ safe (arr_elems e v) /\
     forall n i, arr_len e v = Ret n -> 0 <= i < n -> safe (arr_get e v i)) /\
  (value_type e v = Ret TyDict ->
     safe (dict_len e v) /\ safe (dict_elems e v) /\ safe (dict_first e v) /\
     (forall k, safe (dict_get e v k)) /\ (forall k sk, safe (dict_get_sk e v k sk))).

Definition returns {A} (m : outcome A) : Prop := exists a, m = Ret a.

(** The calls that never panic. *)
Definition no_panic (e : env) (v : val) : Prop :=
  returns (value_type e v) /\ returns (to_str e v) /\ returns (to_data e v) /\
  (value_type e v = Ret TyArray ->
     returns (arr_len e v) /\ returns (arr_elems e v) /\
     forall n i, arr_len e v = Ret n -> 0 <= i < n -> returns (arr_get e v i)) /\
  (value_type e v = Ret TyDict ->
     returns (dict_len e v) /\ returns (dict_elems e v) /\ returns (dict_first e v)).
Definition numbers_no_panic (e : env) (v : val) : Prop :=
  returns (to_bool e v) /\ returns (to_short e v) /\ returns (to_unsigned_short e v) /\
  returns (to_int e v) /\ returns (to_unsigned_int e v) /\ returns (to_float e v) /\
  returns (to_double e v).

(** The bytes a float must have in its slice. *)
Definition float_len (ty : vtype) : Z :=
  match ty with TyDouble64 => 10 | TyFloat | TyDouble32 => 6 | _ => 0 end.

(** No byte of the buffer could be the tag of a string, of binary data, or of a pointer with
    the "external" flag. *)
Definition calm (e : env) : Prop :=
  Forall (fun b => b < 192 /\ ~ 64 <= b < 96) (e_data e).

(** Model of src/encoder/mod.rs and src/encoder/value_stack.rs: the encoder. *)
From Verif Require Import Prelude Varint Utf8 Float SharedKeys Decode Encodable.

(* ---------- value_stack.rs ---------- *)

(** value_stack.rs:19-25 [DictKey] *)
Inductive dictkey :=
| DKInline (s : sized)
| DKShared (i : Z)
| DKPointer (s : list Z) (off : Z).

(** value_stack.rs:27-30 [DictElement] *)
Record delem := mk_delem { de_key : dictkey; de_val : sized }.

(** value_stack.rs:10-17, :33-36 [Collection]; the vectors are lists in push order (their
    capacity is not modelled). *)
Inductive coll :=
| CArr (values : list sized)
| CDict (values : list delem) (next_key : option dictkey).

(** encoder/error.rs:6-14 [EncodeError] *)
Inductive encode_error :=
| ArrayNotOpen
| DictNotOpen
| DictWaitingForValue
| DictWaitingForKey
| CollectionNotOpen
| PointerTooLarge
| MultiTopLevelCollection.

(** encoder/mod.rs:45-51 [Encoder]; the collection stack is listed top first. *)
Record enc := mk_enc {
  en_out : list Z;
  en_sk : option shared_keys;
  en_stack : list coll;
  en_closed : bool;
}.

(** What the model leaves open: build mode, [char::is_alphanumeric] on non-ASCII characters,
    and which sorted permutation [sort_unstable_by] produces (encoder/mod.rs:254). *)
Record cfg := mk_cfg {
  c_dbg : bool;
  c_ua : Z -> bool;
  c_sort : list delem -> list delem;
}.

Definition set_out (e : enc) (o : list Z) : enc := mk_enc o (en_sk e) (en_stack e) (en_closed e).
Definition set_stack (e : enc) (s : list coll) : enc := mk_enc (en_out e) (en_sk e) s (en_closed e).
Definition set_sk (e : enc) (s : option shared_keys) : enc :=
  mk_enc (en_out e) s (en_stack e) (en_closed e).
Definition set_closed (e : enc) (b : bool) : enc := mk_enc (en_out e) (en_sk e) (en_stack e) b.

(** encoder/mod.rs:55-57 [new], :74-81 [new_to_vec] *)
Definition enc_new_to_vec (out : list Z) : enc := mk_enc out None [] false.
Definition enc_new : enc := enc_new_to_vec [].

(** The type of every encoder operation: it may panic; otherwise it returns the new state
    and a [Result]. *)
Definition eres : Type := outcome (enc * result unit encode_error).

(** [?] between two operations. *)
Definition eseq (m : eres) (k : enc -> eres) : eres :=
  r <- m ;;
  match snd r with
  | Ok _ => k (fst r)
  | Err _ => Ret r
  end.

(* ---------- encoder/mod.rs, private part ---------- *)

(** encoder/mod.rs:345-347 padding to even length *)
Definition pad_even (l : list Z) : list Z := if lenZ l mod 2 =? 0 then l else l ++ [0].

(** encoder/mod.rs:325-353 [_write]: returns the offset [as u32]. *)
Definition enc_write (c : cfg) (e : enc) (v : encodable) (is_wide is_collection : bool)
  : outcome (enc * Z) :=
  let offset := lenZ (en_out e) in
  let size_required :=
    if is_wide && negb is_collection then Z.max (fleece_size v) 4 else fleece_size v in
  w <- write_to (c_dbg c) v size_required is_wide ;;
  match w with
  | Some bs =>
      if lenZ bs =? size_required                               (* line 340 assert_eq! *)
      then Ret (set_out e (pad_even (en_out e ++ bs)), wrap_u32 offset)
      else Panic
  | None => Panic
  end.

(** value_stack.rs:110-116 [Dict::push_key] on the top of the stack, as used by
    encoder/mod.rs:356-361, :366-374, :383-387. *)
Definition push_key (e : enc) (k : dictkey) : enc * result unit encode_error :=
  match en_stack e with
  | CDict vs None :: st => (set_stack e (CDict vs (Some k) :: st), Ok tt)
  | CDict _ (Some _) :: _ => (e, Err DictWaitingForValue)
  | _ => (e, Err DictNotOpen)
  end.

(** encoder/mod.rs:380-388 [_write_key_pointer]: the key is written to the output before the
    state of the stack is looked at. *)
Definition write_key_pointer (c : cfg) (e : enc) (key : list Z) : eres :=
  r <- enc_write c e (EStr key) false false ;;
  let '(e1, offset) := r in
  Ret (push_key e1 (DKPointer key offset)).

(** encoder/mod.rs:364-378 [_write_key] *)
Definition write_key_long (c : cfg) (e : enc) (key : list Z) : eres :=
  match en_sk e with
  | Some t =>
      match en_stack e with
      | CDict _ _ :: _ =>
          let '(t', i) := encode_and_insert (c_ua c) t key in
          let e1 := set_sk e (Some t') in
          match i with
          | Some i => Ret (push_key e1 (DKShared i))
          | None => write_key_pointer c e1 key
          end
      | _ => Ret (e, Err DictNotOpen)
      end
  | None => write_key_pointer c e key
  end.

(** encoder/mod.rs:88-96 [write_key] (and :355-362 [_write_key_inline]) *)
Definition write_key (c : cfg) (e : enc) (key : list Z) : eres :=
  match to_sized_value (EStr key) with
  | Some s => Ret (push_key e (DKInline s))
  | None => write_key_long c e key
  end.

(** encoder/mod.rs:393-405 [_push] (value_stack.rs:97-99, :118-124) *)
Definition push_value (e : enc) (s : sized) : enc * result unit encode_error :=
  match en_stack e with
  | [] => (e, Err CollectionNotOpen)
  | CArr vs :: st => (set_stack e (CArr (vs ++ [s]) :: st), Ok tt)
  | CDict vs (Some k) :: st => (set_stack e (CDict (vs ++ [mk_delem k s]) None :: st), Ok tt)
  | CDict _ None :: _ => (e, Err DictWaitingForKey)
  end.

(** encoder/mod.rs:104-124 [write_value] *)
Definition write_value (c : cfg) (e : enc) (v : encodable) : eres :=
  match en_stack e with
  | [] => Ret (e, Err CollectionNotOpen)
  | _ =>
      match to_sized_value v with
      | Some s => Ret (push_value e s)
      | None =>
          r <- enc_write c e v false false ;;
          let '(e1, offset) := r in
          match new_pointer offset with
          | Some p => Ret (push_value e1 p)
          | None => Ret (e1, Err PointerTooLarge)
          end
      end
  end.

(** The rule of value_stack.rs:57-62 / :69-74: a dict on top must have a key pending. *)
Definition top_waits_for_key (st : list coll) : bool :=
  match st with
  | CDict _ None :: _ => true
  | _ => false
  end.

(** encoder/mod.rs:188-193 [begin_array], value_stack.rs:56-66 [push_array].
    [Vec::with_capacity] panics when the byte size exceeds isize::MAX; running out of
    memory is not modelled. *)
Definition begin_array (e : enc) (capacity : Z) : eres :=
  if en_closed e then Ret (e, Err MultiTopLevelCollection)
  else if top_waits_for_key (en_stack e) then Ret (e, Err DictWaitingForKey)
  else if two63 <=? capacity * 4 then Panic
  else Ret (set_stack e (CArr [] :: en_stack e), Ok tt).

(** encoder/mod.rs:221-226 [begin_dict], value_stack.rs:68-77 [push_dict] *)
Definition begin_dict (e : enc) : eres :=
  if en_closed e then Ret (e, Err CollectionNotOpen)
  else if top_waits_for_key (en_stack e) then Ret (e, Err DictWaitingForKey)
  else Ret (set_stack e (CDict [] None :: en_stack e), Ok tt).

(** Is a 4-byte slot value a pointer? *)
Definition is_ptr (s : sized) : bool := vtype_eqb (sized_type s) TyPointer.

(** encoder/mod.rs:425-434 [_array_should_be_wide] *)
Fixpoint array_should_be_wide (dbg : bool) (out_len : Z) (vs : list sized) : outcome bool :=
  match vs with
  | [] => Ret false
  | s :: vs' =>
      if is_ptr s then
        off <- actual_pointer_offset dbg s out_len ;;
        if MAX_NARROW <? off then Ret true else array_should_be_wide dbg out_len vs'
      else array_should_be_wide dbg out_len vs'
  end.

(** encoder/mod.rs:437-454 [_dict_should_be_wide] *)
Fixpoint dict_should_be_wide (dbg : bool) (out_len len : Z) (vs : list delem) : outcome bool :=
  match vs with
  | [] => Ret false
  | d :: vs' =>
      let check_val :=
        if is_ptr (de_val d) then
          off <- actual_pointer_offset dbg (de_val d) out_len ;;
          if MAX_NARROW <? off then Ret true
          else dict_should_be_wide dbg out_len (len + 2) vs'
        else dict_should_be_wide dbg out_len (len + 2) vs' in
      match de_key d with
      | DKPointer _ offset =>
          o <- usize_sub dbg len offset ;;
          o2 <- usize_sub dbg len o ;;
          if MAX_NARROW <? o2 then Ret true else check_val
      | _ => check_val
      end
  end.

(** encoder/mod.rs:483-486 [_fix_pointer] *)
Definition fix_pointer (dbg : bool) (s : sized) (len : Z) : outcome sized :=
  offset <- actual_pointer_offset dbg s len ;;
  match new_pointer offset with
  | Some p => Ret p
  | None => Panic                                               (* line 485 expect *)
  end.

(** encoder/mod.rs:456-465 [_fix_array_pointers]; [len] is a u32. *)
Fixpoint fix_array_pointers (dbg : bool) (len : Z) (w : Z) (vs : list sized)
  : outcome (list sized) :=
  match vs with
  | [] => Ret []
  | s :: vs' =>
      s' <- (if is_ptr s then fix_pointer dbg s len else Ret s) ;;
      len' <- u32_add dbg len w ;;
      r <- fix_array_pointers dbg len' w vs' ;;
      Ret (s' :: r)
  end.

(** encoder/mod.rs:467-480 [_fix_dict_pointers] *)
Fixpoint fix_dict_pointers (dbg : bool) (len : Z) (w : Z) (vs : list delem)
  : outcome (list delem) :=
  match vs with
  | [] => Ret []
  | d :: vs' =>
      k' <- (match de_key d with
             | DKPointer s off => o <- u32_sub dbg len off ;; Ret (DKPointer s o)
             | k => Ret k
             end) ;;
      len1 <- u32_add dbg len w ;;
      v' <- (if is_ptr (de_val d) then fix_pointer dbg (de_val d) len1 else Ret (de_val d)) ;;
      len2 <- u32_add dbg len1 w ;;
      r <- fix_dict_pointers dbg len2 w vs' ;;
      Ret (mk_delem k' v' :: r)
  end.

(** encoder/mod.rs:209-211, the loop of [end_array]. *)
Fixpoint write_slots (c : cfg) (e : enc) (is_wide : bool) (vs : list sized) : outcome enc :=
  match vs with
  | [] => Ret e
  | s :: vs' =>
      r <- enc_write c e (ESized s) is_wide false ;;
      write_slots c (fst r) is_wide vs'
  end.

(** encoder/mod.rs:259-273 the key part of one entry of [end_dict]. *)
Definition dictkey_sized (k : dictkey) : outcome (option sized) :=
  match k with
  | DKInline s => Ret (Some s)
  | DKShared i => match u16_to_sized i with Some s => Ret (Some s) | None => Panic end
  | DKPointer _ off => Ret (new_pointer off)
  end.

(** encoder/mod.rs:258-275, the loop of [end_dict]. *)
Fixpoint write_entries (c : cfg) (e : enc) (is_wide : bool) (vs : list delem) : eres :=
  match vs with
  | [] => Ret (e, Ok tt)
  | d :: vs' =>
      k <- dictkey_sized (de_key d) ;;
      match k with
      | None => Ret (e, Err PointerTooLarge)
      | Some ks =>
          r1 <- enc_write c e (ESized ks) is_wide false ;;
          r2 <- enc_write c (fst r1) (ESized (de_val d)) is_wide false ;;
          write_entries c (fst r2) is_wide vs'
      end
  end.

(** encoder/mod.rs:488-521 [_finished_collection] (and :421-423 [_actual_pointer_offset]) *)
Definition finished_collection (c : cfg) (e : enc) (offset : Z) : eres :=
  match en_stack e with
  | top :: st =>
      match new_pointer offset with
      | None => Ret (e, Err PointerTooLarge)
      | Some p =>
          match top with
          | CDict vs (Some k) => Ret (set_stack e (CDict (vs ++ [mk_delem k p]) None :: st), Ok tt)
          | CDict vs None => Ret (e, Ok tt)                     (* line 495: result ignored *)
          | CArr vs => Ret (set_stack e (CArr (vs ++ [p]) :: st), Ok tt)
          end
      end
  | [] =>
      off <- u32_sub (c_dbg c) (wrap_u32 (lenZ (en_out e))) offset ;;
      if off <=? MAX_NARROW then
        match new_pointer off with
        | None => Panic
        | Some root =>
            r <- enc_write c e (ESized root) false false ;;
            Ret (set_closed (fst r) true, Ok tt)
        end
      else
        match new_pointer off with
        | None => Ret (e, Err PointerTooLarge)
        | Some inner =>
            r1 <- enc_write c e (ESized inner) true false ;;
            match new_pointer 4 with
            | None => Panic
            | Some root =>
                r <- enc_write c (fst r1) (ESized root) false false ;;
                Ret (set_closed (fst r) true, Ok tt)
            end
        end
  end.

(** value_stack.rs:79-87 [pop]: a dict with a pending key is not popped. *)
Definition stack_pop (st : list coll) : option coll * list coll :=
  match st with
  | [] => (None, [])
  | CDict _ (Some _) :: _ => (None, st)
  | x :: st' => (Some x, st')
  end.

(** encoder/mod.rs:198-216 [end_array].  Note that a dict on top is popped (and lost) before
    [ArrayNotOpen] is returned. *)
Definition end_array (c : cfg) (e : enc) : eres :=
  let '(top, st) := stack_pop (en_stack e) in
  let e0 := set_stack e st in
  match top with
  | Some (CArr vs) =>
      is_wide <- array_should_be_wide (c_dbg c) (lenZ (en_out e0)) vs ;;
      r <- enc_write c e0 (EHdr false (lenZ vs)) is_wide true ;;
      let '(e1, offset) := r in
      vs' <- fix_array_pointers (c_dbg c) (wrap_u32 (lenZ (en_out e1))) (width_of is_wide) vs ;;
      e2 <- write_slots c e1 is_wide vs' ;;
      finished_collection c e2 offset
  | _ => Ret (e0, Err ArrayNotOpen)
  end.

(** encoder/mod.rs:233-281 [end_dict] *)
Definition end_dict (c : cfg) (e : enc) : eres :=
  match en_stack e with
  | CDict _ (Some _) :: _ => Ret (e, Err DictWaitingForValue)
  | CDict vs None :: st =>
      let e0 := set_stack e st in
      let n := lenZ (en_out e0) in
      is_wide <- dict_should_be_wide (c_dbg c) n n vs ;;
      r <- enc_write c e0 (EHdr true (lenZ vs)) is_wide true ;;
      let '(e1, offset) := r in
      vs' <- fix_dict_pointers (c_dbg c) (wrap_u32 (lenZ (en_out e1))) (width_of is_wide)
               (c_sort c vs) ;;
      eseq (write_entries c e1 is_wide vs') (fun e2 => finished_collection c e2 offset)
  | _ => Ret (e, Err DictNotOpen)
  end.

(** encoder/mod.rs:408-418 [_end]; every round pops one collection. *)
Fixpoint enc_end (fuel : nat) (c : cfg) (e : enc) : outcome enc :=
  match fuel with
  | O => Diverge
  | S f =>
      match en_stack e with
      | [] => Ret e
      | CArr _ :: _ => r <- end_array c e ;; enc_end f c (fst r)
      | CDict vs _ :: st =>
          r <- end_dict c (set_stack e (CDict vs None :: st)) ;; enc_end f c (fst r)
      end
  end.

(** encoder/mod.rs:283-286 [finish] *)
Definition finish (c : cfg) (e : enc) : outcome (list Z) :=
  e' <- enc_end (S (length (en_stack e))) c e ;; Ret (en_out e').

(** encoder/mod.rs:63-71 [finish_value]: the bytes are copied to a buffer at address [base];
    the result is that buffer and the root value. *)
Definition finish_value (c : cfg) (base : Z) (e : enc) : outcome (env * val) :=
  bs <- finish c e ;;
  let m := mk_env (c_dbg c) base bs None in
  if c_dbg c then
    r <- from_bytes m ;;
    match r with Ok v => Ret (m, v) | Err _ => Panic end
  else v <- from_bytes_unchecked m ;; Ret (m, v).

(** encoder/mod.rs:181-183 [set_shared_keys] *)
Definition set_shared_keys (e : enc) (t : shared_keys) : enc := set_sk e (Some t).

(* ---------- write_fleece (encoder/mod.rs:134-179) ---------- *)

(** A [for] loop whose body is an encoder operation with [?]. *)
Fixpoint for_each {A} (body : enc -> A -> eres) (e : enc) (l : list A) : eres :=
  match l with
  | [] => Ret (e, Ok tt)
  | x :: l' => eseq (body e x) (fun e' => for_each body e' l')
  end.

(** [src]/[v] is the value being copied.  Simplification: the elements of a collection are
    all fetched from the iterator before the first is written (reads and writes do not
    interact: the source buffer is immutable). *)
Fixpoint write_fleece (fuel : nat) (c : cfg) (e : enc) (src : env) (v : val) : eres :=
  match fuel with
  | O => Diverge
  | S f =>
      t <- value_type src v ;;
      let is_coll := vtype_eqb t TyArray || vtype_eqb t TyDict in
      match en_stack e, is_coll with
      | [], false => Ret (e, Err CollectionNotOpen)
      | _, _ =>
          match t with
          | TyTrue => Ret (push_value e (sized_of_const CONST_TRUE))
          | TyFalse => Ret (push_value e (sized_of_const CONST_FALSE))
          | TyNull => Ret (push_value e (sized_of_const CONST_NULL))
          | TyUndefined => Ret (push_value e (sized_of_const CONST_UNDEFINED))
          | TyShort => z <- to_short src v ;; write_value c e (EInt I16 z)
          | TyUnsignedInt => z <- to_unsigned_int src v ;; write_value c e (EInt U64 z)
          | TyInt => z <- to_int src v ;; write_value c e (EInt I64 z)
          | TyFloat => x <- to_float src v ;; write_value c e (EF32 x)
          | TyDouble32 | TyDouble64 => x <- to_double src v ;; write_value c e (EF64 x)
          | TyString => s <- to_str src v ;; write_value c e (EStr s)
          | TyData => s <- to_data src v ;; write_value c e (EData s)
          | TyArray =>
              n <- arr_len src v ;;
              eseq (begin_array e n) (fun e1 =>
                vs <- arr_elems src v ;;
                eseq (for_each (fun e' x => write_fleece f c e' src x) e1 vs) (fun e2 =>
                  end_array c e2))
          | TyDict =>
              eseq (begin_dict e) (fun e1 =>
                kvs <- dict_elems src v ;;
                eseq (for_each (fun e' kv =>
                        eseq (write_key c e' (fst kv)) (fun e'' =>
                          write_fleece f c e'' src (snd kv))) e1 kvs) (fun e2 =>
                  end_dict c e2))
          | TyPointer =>
              x <- deref_unchecked (fuel_of src) src v false ;; write_fleece f c e src x
          end
      end
  end.

(* ---------- Call sequences ---------- *)

(** One call of the public API of the encoder. *)
Inductive op :=
| OpKey (k : list Z)
| OpValue (v : encodable)
| OpBeginArray (capacity : Z)
| OpEndArray
| OpBeginDict
| OpEndDict
| OpSetSharedKeys (t : shared_keys).

Definition enc_step (c : cfg) (e : enc) (o : op) : eres :=
  match o with
  | OpKey k => write_key c e k
  | OpValue v => write_value c e v
  | OpBeginArray n => begin_array e n
  | OpEndArray => end_array c e
  | OpBeginDict => begin_dict e
  | OpEndDict => end_dict c e
  | OpSetSharedKeys t => Ret (set_shared_keys e t, Ok tt)
  end.

(** A program that makes the calls in order, whatever they return, and keeps the results. *)
Fixpoint enc_run (c : cfg) (e : enc) (ops : list op)
  : outcome (enc * list (result unit encode_error)) :=
  match ops with
  | [] => Ret (e, [])
  | o :: ops' =>
      r <- enc_step c e o ;;
      rs <- enc_run c (fst r) ops' ;;
      Ret (fst rs, snd r :: snd rs)
  end.

(* ---------- dict_key_cmp (encoder/mod.rs:295-317) ---------- *)

(** [value1.as_value().to_str()] of an inline key: the text of a 0- or 1-byte string slot. *)
Definition sized_str (s : sized) : list Z :=
  match to_str (mk_env false 0 s None) (V 0 4) with
  | Ret x => x
  | _ => []
  end.
(** The text a key is compared by; [None] for shared keys. *)
Definition dictkey_str (k : dictkey) : option (list Z) :=
  match k with
  | DKInline s => Some (sized_str s)
  | DKPointer s _ => Some s
  | DKShared _ => None
  end.
Definition enc_key_cmp (a b : dictkey) : comparison :=
  match a, b with
  | DKShared i, DKShared j => i ?= j
  | DKShared _, _ => Lt
  | _, DKShared _ => Gt
  | _, _ =>
      match dictkey_str a, dictkey_str b with
      | Some x, Some y => bytes_cmp x y
      | _, _ => Eq
      end
  end.

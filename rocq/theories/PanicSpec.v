(** Which inputs make [from_bytes] panic: the places it looks at, in order, and the three
    things that go wrong there. *)
From Verif Require Import Prelude SharedKeys Decode ReadSpec.

(** A place the validation looks at: a slot of a collection ([p_slot]) or the root or the target
    of a pointer; the width of pointers there; the bytes; where they must end. *)
Record place := mk_place { p_slot : bool; p_wide : bool; p_val : val; p_end : Z }.

(** Following the pointer [v], one comes to a pointer that is marked as external. *)
Inductive external (e : env) : bool -> val -> Prop :=
| ext_here w v off b :
    width_of w <= v_len v -> get_offset e v w = Ret off -> off <> 0 ->
    vbyte e v 0 = Ret b -> Z.land b 0x40 <> 0 -> external e w v
| ext_next w v off b :
    width_of w <= v_len v -> get_offset e v w = Ret off -> off <> 0 ->
    vbyte e v 0 = Ret b -> Z.land b 0x40 = 0 -> off <= v_pos v ->
    value_type e (V (v_pos v - off) off) = Ret TyPointer ->
    external e true (V (v_pos v - off) off) -> external e w v.

(** Where a string or binary data would end, counted from its first byte; 0 if its length cannot
    be read. *)
Definition text_end (e : env) (v : val) : outcome Z :=
  b0 <- vbyte e v 0 ;;
  if Z.land b0 0x0F =? 0x0F then
    r <- varint_at e v 1 ;;
    Ret (if fst r =? 0 then 0 else 1 + fst r + snd r)
  else Ret (1 + Z.land b0 0x0F).
(** It is longer than the bytes there are (debug builds also panic while reading a length of
    more than nine bytes). *)
Definition too_long (e : env) (v : val) : Prop :=
  text_end e v = Panic \/ exists n, text_end e v = Ret n /\ v_len v < n.

(** The address after the last slot of a collection, as a number without limit. *)
Definition coll_end (e : env) (v : val) : outcome Z :=
  t <- value_type e v ;;
  wide <- arr_is_wide e v ;;
  s <- get_short e v ;;
  let slots := (if vtype_eqb t TyDict then 2 else 1) * width_of wide in
  if Z.land s VARINT_COUNT =? VARINT_COUNT then
    r <- varint_at e v 2 ;;
    Ret (e_base e + v_pos v + 2 + fst r + fst r mod 2 + (if fst r =? 0 then 0 else snd r) * slots)
  else Ret (e_base e + v_pos v + 2 + Z.land s VARINT_COUNT * slots).

Inductive mishap (e : env) : place -> Prop :=
| mis_external s w v d : value_type e v = Ret TyPointer -> external e w v -> mishap e (mk_place s w v d)
| mis_long s w v d : value_type e v = Ret TyString \/ value_type e v = Ret TyData -> too_long e v -> mishap e (mk_place s w v d)
| mis_count s w v d : e_dbg e = true -> value_type e v = Ret TyArray \/ value_type e v = Ret TyDict ->
    coll_end e v = Panic \/ (exists n, coll_end e v = Ret n /\ two64 <= n) -> mishap e (mk_place s w v d).

(** Validation finds nothing wrong at a slot. *)
Definition slot_accepted (e : env) (wide : bool) (p : Z) : Prop :=
  from_raw e p (width_of wide) = Ret (Ok (V p (width_of wide))) /\
  exists f, validate f e true wide (V p (width_of wide)) (p + width_of wide) = Ret (Ok tt).

(** From one place to the next: the target of a pointer, and the slots of a collection that has
    room for them, up to the first that is not accepted. *)
Inductive next_place (e : env) : place -> place -> Prop :=
| np_target s w v d t :
    value_type e v = Ret TyPointer -> deref_checked (fuel_of e) e v w = Ret (Ok t) ->
    next_place e (mk_place s w v d) (mk_place false w t (v_pos v))
| np_slot s w v d wide n fp i p :
    value_type e v = Ret TyArray \/ value_type e v = Ret TyDict ->
    arr_is_wide e v = Ret wide -> arr_len e v = Ret n -> first_pos e v = Ret fp ->
    v_pos v + fp + n * width_of wide <= d ->
    0 <= i < n -> (forall j, 0 <= j < i -> slot_accepted e wide (v_pos v + fp + j * width_of wide)) ->
    p = v_pos v + fp + i * width_of wide ->
    next_place e (mk_place s w v d) (mk_place true wide (V p (width_of wide)) (p + width_of wide)).
Inductive visits (e : env) : place -> Prop :=
| vis_root r : find_root e = Ret (Ok r) -> visits e (mk_place false false r (lenZ (e_data e)))
| vis_next a b : visits e a -> next_place e a b -> visits e b.

(** The pointer at the end of the input leads to an external pointer. *)
Definition root_external (e : env) : Prop :=
  lenZ (e_data e) <> 0 /\ lenZ (e_data e) mod 2 = 0 /\
  value_type e (V (lenZ (e_data e) - 2) 2) = Ret TyPointer /\ external e false (V (lenZ (e_data e) - 2) 2).

(** Model of src/de.rs: deserializing through serde. *)
From Verif Require Import Prelude Utf8 Float SharedKeys Decode Read Encodable Encoder Scopes Ser.

(* ---------- Types ---------- *)

(** The Rust types that derive (or have in std) [Deserialize].  [YNamed n] refers to a table of
    type definitions, for recursive types.  [YBytes] is a byte buffer (as in serde_bytes); the
    fields of structs and the variants of enums are given with their names. *)
Inductive sty :=
| YBool
| YInt (t : ity)
| YF32
| YF64
| YChar
| YStr
| YBytes
| YUnit
| YUnitStruct
| YOpt (t : sty)
| YNewtype (t : sty)
| YSeq (t : sty)
| YTuple (ts : list sty)
| YTupleStruct (ts : list sty)
| YMap (k v : sty)
| YStruct (fields : list (list Z * sty))
| YEnum (variants : list (list Z * vty))
| YNamed (n : nat)
with vty :=
| VUnit
| VNewtype (t : sty)
| VTuple (ts : list sty)
| VStruct (fields : list (list Z * sty)).

(** de.rs:54-62 [DeserializeError] (payloads dropped), a [DecodeError], and the errors serde's
    own code makes ([de::Error::invalid_type] and so on, here all [Error::Message]). *)
Inductive de_error :=
| DeDecode (x : decode_error)
| DeNotArray
| DeNotDict
| DeInvalidEnumType
| DeKeyWithoutValue
| DeInvalidEnumLayout
| DeCannotDecodeSharedKeys
| DeInvalidType
| DeInvalidValue
| DeInvalidLength
| DeMissingField
| DeDuplicateField
| DeUnknownVariant.
Definition dser (A : Type) : Type := outcome (result A de_error).

(* ---------- Deserializer ---------- *)

(** de.rs:94-118 [new], [new_for_dict_key]: pointers are followed. *)
Definition de_new (e : env) (wide : bool) (v : val) : outcome val :=
  t <- value_type e v ;;
  if vtype_eqb t TyPointer then deref_unchecked (fuel_of e) e v wide else Ret v.

(** Which method of the visitor [deserialize_any] calls.  Integers: [true] for [visit_u64],
    [false] for [visit_i16] and [visit_i64], which serde's visitors treat alike. *)
Inductive event :=
| VisNone
| VisUnit
| VisBool (b : bool)
| VisInt (unsigned : bool) (z : Z)
| VisF32 (bits : Z)
| VisF64 (bits : Z)
| VisStr (s : list Z)
| VisBytes (s : list Z)
| VisSeq
| VisMap.

(** de.rs:124-162 [deserialize_any]; [key] is [is_dict_key]. *)
Definition de_any (e : env) (key : bool) (v : val) : dser event :=
  t <- value_type e v ;;
  match t with
  | TyNull => Ret (Ok VisNone)
  | TyUndefined => Ret (Ok VisUnit)
  | TyFalse | TyTrue => b <- to_bool e v ;; Ret (Ok (VisBool b))
  | TyShort =>
      if key then
        i <- to_unsigned_short e v ;;
        Ret match e_sk e with
            | Some tb => match sk_decode tb i with
                         | Some s => Ok (VisStr s)
                         | None => Err DeCannotDecodeSharedKeys
                         end
            | None => Err DeCannotDecodeSharedKeys
            end
      else z <- to_short e v ;; Ret (Ok (VisInt false z))
  | TyInt => z <- to_int e v ;; Ret (Ok (VisInt false z))
  | TyUnsignedInt => z <- to_unsigned_int e v ;; Ret (Ok (VisInt true z))
  | TyFloat => x <- to_float e v ;; Ret (Ok (VisF32 x))
  | TyDouble32 | TyDouble64 => x <- to_double e v ;; Ret (Ok (VisF64 x))
  | TyString => s <- to_str e v ;; Ret (Ok (VisStr s))
  | TyData => s <- to_data e v ;; Ret (Ok (VisBytes s))
  | TyArray => Ret (Ok VisSeq)
  | TyDict => Ret (Ok VisMap)
  | TyPointer => Panic                                           (* lines 158-160 *)
  end.

(** de.rs:253-267 [next_element_seed], :291-305 [next_key_seed]: the next value, ready to be
    deserialized. *)
Definition next_value (e : env) (it : aiter) : outcome (option val * aiter) :=
  r <- iter_next e it ;;
  let '(x, it') := r in
  match x with
  | None => Ret (None, it')
  | Some v => v' <- de_new e (it_width it' =? 4) v ;; Ret (Some v', it')
  end.

(* ---------- serde's visitors ----------
   Not code of the crate: what the [Deserialize] implementations of the standard types and of
   [derive(Deserialize)] do with the calls they get, from serde's documentation and source. *)

Definition one_char (s : list Z) : bool := utf8_valid s && (lenZ (utf8_chars s) =? 1).
Definition visit_scalar (ty : sty) (ev : event) : result sval de_error :=
  match ty, ev with
  | YBool, VisBool b => Ok (SBool b)
  | YInt t, VisInt _ z =>
      if (ity_min t <=? z) && (z <=? ity_max t) then Ok (SInt t z) else Err DeInvalidValue
  | YF32, VisF32 x => Ok (SF32 x)
  | YF32, VisF64 x => Ok (SF32 (f32_of_f64 x))
  | YF32, VisInt _ z => Ok (SF32 (fround 23 8 (z <? 0) (Z.abs z) 0))
  | YF64, VisF64 x => Ok (SF64 x)
  | YF64, VisF32 x => Ok (SF64 (f64_of_f32 x))
  | YF64, VisInt _ z => Ok (SF64 (fround 52 11 (z <? 0) (Z.abs z) 0))
  | YChar, VisStr s => if one_char s then Ok (SChar s) else Err DeInvalidValue
  | YStr, VisStr s => Ok (SStr s)
  | YStr, VisBytes s => if utf8_valid s then Ok (SStr s) else Err DeInvalidValue
  | YBytes, VisBytes s | YBytes, VisStr s => Ok (SBytes s)
  | YUnit, VisUnit => Ok SUnit
  | YUnitStruct, VisUnit => Ok SUnitStruct
  | _, _ => Err DeInvalidType
  end.

(** The name of a field or variant: by name, or by number; [None] if there is no such one. *)
Definition ident (names : list (list Z)) (ev : event) : result (option (list Z)) de_error :=
  match ev with
  | VisStr s | VisBytes s => Ok (if existsb (bytes_eqb s) names then Some s else None)
  | VisInt true z => Ok (nthZ names z)
  | _ => Err DeInvalidType
  end.
Fixpoint lookup {A} (s : list Z) (l : list (list Z * A)) : option A :=
  match l with
  | [] => None
  | (k, x) :: l' => if bytes_eqb k s then Some x else lookup s l'
  end.

(** [visit_seq] of [Vec]: until the sequence ends. *)
Definition seq_all (g : val -> dser sval) (e : env) : nat -> aiter -> dser (list sval) :=
  fix go (k : nat) (it : aiter) : dser (list sval) :=
    match k with
    | O => Diverge
    | S k' =>
        r <- next_value e it ;;
        match fst r with
        | None => Ret (Ok [])
        | Some v => x <-? g v ;; xs <-? go k' (snd r) ;; Ret (Ok (x :: xs))
        end
    end.
(** [visit_seq] of tuples and tuple structs: one element for each field; what follows is left. *)
Definition seq_n (g : val -> sty -> dser sval) (e : env) : list sty -> aiter -> dser (list sval) :=
  fix go (ts : list sty) (it : aiter) : dser (list sval) :=
    match ts with
    | [] => Ret (Ok [])
    | t :: ts' =>
        r <- next_value e it ;;
        match fst r with
        | None => Ret (Err DeInvalidLength)
        | Some v => x <-? g v t ;; xs <-? go ts' (snd r) ;; Ret (Ok (x :: xs))
        end
    end.
(** [visit_map] of maps: the entries in order.  (A later entry with an equal key replaces an
    earlier one in the map; here both are listed.)  de.rs:307-319 [next_value_seed]. *)
Definition map_all (gk gv : val -> dser sval) (e : env) : nat -> aiter -> dser (list (sval * sval)) :=
  fix go (k : nat) (it : aiter) : dser (list (sval * sval)) :=
    match k with
    | O => Diverge
    | S k' =>
        r <- next_value e it ;;
        match fst r with
        | None => Ret (Ok [])
        | Some v =>
            x <-? gk v ;;
            r2 <- next_value e (snd r) ;;
            match fst r2 with
            | None => Ret (Err DeKeyWithoutValue)
            | Some w => y <-? gv w ;; xs <-? go k' (snd r2) ;; Ret (Ok ((x, y) :: xs))
            end
        end
    end.

(** [IgnoredAny]: [deserialize_any] on everything that is not wanted. *)
Fixpoint ignore_any (fuel : nat) (e : env) (key : bool) (v : val) : dser sval :=
  match fuel with
  | O => Diverge
  | S f =>
      ev <-? de_any e key v ;;
      match ev with
      | VisSeq =>
          it <- arr_iter e v ;;
          _ <-? seq_all (ignore_any f e false) e (S (S (length (e_data e)))) it ;; Ret (Ok SUnit)
      | VisMap =>
          it <- arr_iter e v ;;
          _ <-? map_all (ignore_any f e true) (ignore_any f e false) e (S (S (length (e_data e)))) it ;;
          Ret (Ok SUnit)
      | _ => Ret (Ok SUnit)
      end
  end.

(** The fields that were not found: [Option] fields are [None], others an error.  Found fields
    are in [acc]. *)
Definition missing_field (G : nat -> sty) (t : sty) : result sval de_error :=
  match t with
  | YOpt _ => Ok SNone
  | YNamed n => match G n with YOpt _ => Ok SNone | _ => Err DeMissingField end
  | _ => Err DeMissingField
  end.
Fixpoint fields_of (G : nat -> sty) (fields : list (list Z * sty)) (acc : list (list Z * sval))
  : result (list (list Z * sval)) de_error :=
  match fields with
  | [] => Ok []
  | (name, t) :: fields' =>
      match match lookup name acc with Some x => Ok x | None => missing_field G t end with
      | Err x => Err x
      | Ok x => match fields_of G fields' acc with Ok l => Ok ((name, x) :: l) | Err y => Err y end
      end
  end.
(** [visit_map] of a struct *)
Definition struct_loop (G : nat -> sty) (g : val -> sty -> dser sval) (ign : val -> dser sval) (e : env)
  (fields : list (list Z * sty)) : nat -> aiter -> list (list Z * sval) -> dser (list (list Z * sval)) :=
  fix go (k : nat) (it : aiter) (acc : list (list Z * sval)) : dser (list (list Z * sval)) :=
    match k with
    | O => Diverge
    | S k' =>
        r <- next_value e it ;;
        match fst r with
        | None => Ret (fields_of G fields acc)
        | Some v =>
            ev <-? de_any e true v ;;
            name <-? Ret (ident (map fst fields) ev) ;;
            match match name with Some s => lookup s acc | None => None end with
            | Some _ => Ret (Err DeDuplicateField)
            | None =>
                r2 <- next_value e (snd r) ;;
                match fst r2 with
                | None => Ret (Err DeKeyWithoutValue)
                | Some w =>
                    match match name with Some s => lookup s fields | None => None end, name with
                    | Some t, Some s => x <-? g w t ;; go k' (snd r2) (acc ++ [(s, x)])
                    | _, _ => _ <-? ign w ;; go k' (snd r2) acc
                    end
                end
            end
        end
    end.

(* ---------- Deserializing a type ---------- *)

(** de.rs:347-351 and others: [ok_or(..(format!("{:?}", self.array)))] formats the whole array,
    also when it is not needed.  Formatting (array.rs:269-277, dict.rs:303-311,
    value/mod.rs:558-594) makes the accessor calls that reading the value makes. *)
Definition debug_fmt (e : env) (v : val) : outcome unit := _ <- read_doc e v ;; Ret tt.

(** [deserialize] of every type on a [Deserializer] for value [v].  The fuel bounds the nesting
    of [deserialize] calls. *)
Fixpoint de (G : nat -> sty) (fuel : nat) (e : env) (key : bool) (v : val) (ty : sty) : dser sval :=
  match fuel with
  | O => Diverge
  | S f =>
      let k := S (S (length (e_data e))) in
      match ty with
      | YNamed n => de G f e key v (G n)
      | YOpt t =>                                              (* de.rs:164-172 *)
          vt <- value_type e v ;;
          match vt with
          | TyNull => Ret (Ok SNone)
          | _ => x <-? de G f e key v t ;; Ret (Ok (SSome x))
          end
      | YSeq t =>                                              (* de.rs:174-183 *)
          a <- as_array e v ;;
          match a with
          | None => Ret (Err DeNotArray)
          | Some a =>
              it <- arr_iter e a ;;
              l <-? seq_all (fun x => de G f e false x t) e k it ;; Ret (Ok (SSeq l))
          end
      | YMap kt vt =>                                          (* de.rs:185-194 *)
          d <- as_dict e v ;;
          match d with
          | None => Ret (Err DeNotDict)
          | Some d =>
              it <- arr_iter e d ;;
              l <-? map_all (fun x => de G f e true x kt) (fun x => de G f e false x vt) e k it ;; Ret (Ok (SMap l))
          end
      | YStruct fields =>                                      (* de.rs:196-206 *)
          d <- as_dict e v ;;
          match d with
          | None => Ret (Err DeNotDict)
          | Some d =>
              it <- arr_iter e d ;;
              l <-? struct_loop G (fun x t => de G f e false x t) (ignore_any f e false) e fields k it [] ;;
              Ret (Ok (SStruct l))
          end
      | YEnum variants =>                                      (* de.rs:208-224 *)
          a <- as_array e v ;;
          match a with
          | None => Ret (Err DeInvalidEnumType)
          | Some a =>
              (* de.rs:341-360 [variant_seed] *)
              wide <- arr_is_wide e a ;;
              x0 <- arr_get e a 0 ;;
              _ <- debug_fmt e a ;;
              match x0 with
              | None => Ret (Err DeInvalidEnumLayout)
              | Some x0 =>
                  x0' <- de_new e wide x0 ;;
                  ev <-? de_any e false x0' ;;
                  name <-? Ret (ident (map fst variants) ev) ;;
                  match name with
                  | None => Ret (Err match ev with VisInt _ _ => DeInvalidValue | _ => DeUnknownVariant end)
                  | Some s =>
                      let inner (k : val -> dser sval) : dser sval :=
                        x1 <- arr_get e a 1 ;;
                        _ <- debug_fmt e a ;;
                        match x1 with
                        | None => Ret (Err DeInvalidEnumLayout)
                        | Some x1 => k x1
                        end in
                      match lookup s variants with
                      | None => Ret (Err DeUnknownVariant)
                      | Some VUnit =>                          (* de.rs:366-374 *)
                          n <- arr_len e a ;;
                          if n =? 1 then Ret (Ok (SUnitVariant s))
                          else _ <- debug_fmt e a ;; Ret (Err DeInvalidEnumLayout)
                      | Some (VNewtype t) =>                   (* de.rs:376-392 *)
                          inner (fun x1 =>
                            x1' <- de_new e wide x1 ;;
                            y <-? de G f e false x1' t ;; Ret (Ok (SNewtypeVariant s y)))
                      | Some (VTuple ts) =>                    (* de.rs:394-416 *)
                          inner (fun x1 =>
                            b <- as_array e x1 ;;
                            match b with
                            | None => _ <- debug_fmt e a ;; Ret (Err DeInvalidEnumLayout)
                            | Some b =>
                                n <- arr_len e b ;;
                                if n =? lenZ ts then
                                  x1' <- de_new e wide x1 ;;
                                  it <- arr_iter e x1' ;;
                                  l <-? seq_n (fun x t => de G f e false x t) e ts it ;;
                                  Ret (Ok (STupleVariant s l))
                                else _ <- debug_fmt e a ;; Ret (Err DeInvalidEnumLayout)
                            end)
                      | Some (VStruct fields) =>               (* de.rs:418-450 *)
                          inner (fun x1 =>
                            b <- as_dict e x1 ;;
                            match b with
                            | None => _ <- debug_fmt e a ;; Ret (Err DeInvalidEnumLayout)
                            | Some b =>
                                n <- dict_len e b ;;
                                ok <- (if n =? lenZ fields then
                                         (fix all (l : list (list Z * sty)) : outcome bool :=
                                            match l with
                                            | [] => Ret true
                                            | f0 :: l' =>
                                                c <- match e_sk e with
                                                     | Some tb => dict_contains_sk e b (fst f0) tb
                                                     | None => dict_contains e b (fst f0)
                                                     end ;;
                                                if c then all l' else Ret false
                                            end) fields
                                       else Ret false) ;;
                                if ok then
                                  x1' <- de_new e wide x1 ;;
                                  it <- arr_iter e x1' ;;
                                  l <-? struct_loop G (fun x t => de G f e false x t) (ignore_any f e false) e fields k it [] ;;
                                  Ret (Ok (SStructVariant s l))
                                else _ <- debug_fmt e a ;; Ret (Err DeInvalidEnumLayout)
                            end)
                      end
                  end
              end
          end
      | _ =>                                                   (* de.rs:230-233 *)
          ev <-? de_any e key v ;;
          match ty, ev with
          | YNewtype t, VisSeq =>
              (* serde's visitor for a newtype struct takes a sequence of one element *)
              it <- arr_iter e v ;;
              l <-? seq_n (fun x t => de G f e false x t) e [t] it ;;
              Ret (Ok (SNewtype (nth 0 l SUnit)))
          | YTuple ts, VisSeq =>
              it <- arr_iter e v ;;
              l <-? seq_n (fun x t => de G f e false x t) e ts it ;; Ret (Ok (STuple l))
          | YTupleStruct ts, VisSeq =>
              it <- arr_iter e v ;;
              l <-? seq_n (fun x t => de G f e false x t) e ts it ;; Ret (Ok (STupleStruct l))
          | YBytes, VisSeq =>
              it <- arr_iter e v ;;
              l <-? seq_all (fun x => de G f e false x (YInt U8)) e k it ;;
              Ret (Ok (SBytes (map (fun x => match x with SInt _ z => z | _ => 0 end) l)))
          | _, _ => Ret (visit_scalar ty ev)
          end
      end
  end.

(** de.rs:45-52 [from_bytes], :86-92 [init]; [e_sk e] are the shared keys found for the address
    of the root. *)
Definition de_from_bytes (G : nat -> sty) (fuel : nat) (e : env) (ty : sty) : dser sval :=
  r <- from_bytes e ;;
  match r with
  | Err x => Ret (Err (DeDecode x))
  | Ok v => v' <- de_new e false v ;; de G fuel e false v' ty
  end.
(** The same with the keys looked up in the world ([base] is where the bytes are). *)
Definition from_bytes_in (G : nat -> sty) (fuel : nat) (w : world) (dbg : bool) (base : Z) (bs : list Z) (ty : sty)
  : dser sval :=
  r <- from_bytes (mk_env dbg base bs None) ;;
  match r with
  | Err x => Ret (Err (DeDecode x))
  | Ok v => k <- find_shared_keys w (base + v_pos v) ;; de_from_bytes G fuel (mk_env dbg base bs k) ty
  end.

(** Specification for serializing and deserializing through serde: which values can be
    serialized, what document they describe, and when a value is of a type. *)
From Verif Require Import Prelude Utf8 Float SharedKeys Decode Read Encodable Encoder BuilderSpec Ser De.
From Coq Require Import Permutation.

(* ---------- serializing ---------- *)

(** The text of a map key, or what it is instead of a text. *)
Fixpoint key_text (k : sval) : result (list Z) key_kind :=
  match k with
  | SStr s | SChar s => Ok s
  | SSome v | SNewtype v => key_text v
  | SBool _ => Err KBool
  | SInt _ _ => Err KInt
  | SF32 _ | SF64 _ => Err KFloat
  | SBytes _ => Err KBytes
  | SNone => Err KOption
  | SUnit | SUnitStruct => Err KUnit
  | SUnitVariant _ | SNewtypeVariant _ _ | STupleVariant _ _ | SStructVariant _ _ => Err KEnum
  | SSeq _ => Err KSequence
  | STuple _ | STupleStruct _ => Err KTuple
  | SMap _ => Err KMap
  | SStruct _ => Err KStruct
  end.

(** The first map key, in the order of serialization, that is not a text. *)
Definition first_bad {A} (f : A -> option key_kind) : list A -> option key_kind :=
  fix go (l : list A) : option key_kind :=
    match l with
    | [] => None
    | x :: l' => match f x with Some k => Some k | None => go l' end
    end.
Fixpoint bad_key (v : sval) : option key_kind :=
  match v with
  | SSome w | SNewtype w | SNewtypeVariant _ w => bad_key w
  | SSeq l | STuple l | STupleStruct l | STupleVariant _ l => first_bad bad_key l
  | SStruct l | SStructVariant _ l => first_bad (fun f => bad_key (snd f)) l
  | SMap l => first_bad (fun kv => match key_text (fst kv) with Err k => Some k | Ok _ => bad_key (snd kv) end) l
  | _ => None
  end.

(** Values that are stored as an array or a dict. *)
Fixpoint collection (v : sval) : bool :=
  match v with
  | SSome w | SNewtype w => collection w
  | SUnitVariant _ | SNewtypeVariant _ _ | STupleVariant _ _ | SStructVariant _ _
  | SSeq _ | STuple _ | STupleStruct _ | SMap _ | SStruct _ => true
  | _ => false
  end.

(** The document a value is stored as: enum variants are arrays of the name and the content. *)
Definition text_of (k : sval) : list Z := match key_text k with Ok s => s | Err _ => [] end.
Fixpoint stree (v : sval) : tree :=
  let fields l := TDict (map (fun f => (fst f, stree (snd f))) l) in
  match v with
  | SBool b => TBool b
  | SInt _ z => TInt z
  | SF32 b => TF32 (quiet32 b)
  | SF64 b => TF64 b
  | SChar s | SStr s => TStr s
  | SBytes s => TData s
  | SNone | SUnitStruct => TNull
  | SUnit => TUndef
  | SSome w | SNewtype w => stree w
  | SUnitVariant name => TArr [TStr name]
  | SNewtypeVariant name w => TArr [TStr name; stree w]
  | SSeq l | STuple l | STupleStruct l => TArr (map stree l)
  | STupleVariant name l => TArr [TStr name; TArr (map stree l)]
  | SMap l => TDict (map (fun kv => (text_of (fst kv), stree (snd kv))) l)
  | SStruct l => fields l
  | SStructVariant name l => TArr [TStr name; fields l]
  end.

(** The encoder calls that write that document.  A key that is not a text ends them. *)
Inductive call := COp (o : op) | CBadKey (k : key_kind).
Definition key_call (k : sval) : call := match key_text k with Ok s => COp (OpKey s) | Err x => CBadKey x end.
Fixpoint calls (v : sval) : list call :=
  let fields l := COp OpBeginDict :: flat_map (fun f => COp (OpKey (fst f)) :: calls (snd f)) l ++ [COp OpEndDict] in
  let named cap name inner := COp (OpBeginArray cap) :: COp (OpValue (EStr name)) :: inner ++ [COp OpEndArray] in
  let seq l := COp (OpBeginArray (lenZ l)) :: flat_map calls l ++ [COp OpEndArray] in
  match v with
  | SBool b => [COp (OpValue (EBool b))]
  | SInt Isize z => [COp (OpValue (EInt I64 z))]
  | SInt Usize z => [COp (OpValue (EInt U64 z))]
  | SInt t z => [COp (OpValue (EInt t z))]
  | SF32 b => [COp (OpValue (EF32 b))]
  | SF64 b => [COp (OpValue (EF64 b))]
  | SChar s | SStr s => [COp (OpValue (EStr s))]
  | SBytes s => [COp (OpValue (EData s))]
  | SNone | SUnitStruct => [COp (OpValue ENull)]
  | SUnit => [COp (OpValue EUndef)]
  | SSome w | SNewtype w => calls w
  | SUnitVariant name => named 1 name []
  | SNewtypeVariant name w => named 2 name (calls w)
  | SSeq l | STuple l | STupleStruct l => seq l
  | STupleVariant name l => named 3 name (seq l)
  | SMap l => COp OpBeginDict :: flat_map (fun kv => key_call (fst kv) :: calls (snd kv)) l ++ [COp OpEndDict]
  | SStruct l => fields l
  | SStructVariant name l => named (lenZ l + 2) name (fields l)
  end.
Fixpoint ops_of (cs : list call) : list op :=
  match cs with COp o :: cs' => o :: ops_of cs' | _ => [] end.
Definition ser_ops (v : sval) : list op := ops_of (calls v).

(* ---------- values of a type ---------- *)

(** [typed G n ty v]: [v] is a value of the Rust type [ty]; [G] gives the definitions of named
    types and [n] bounds the nesting.  Names of fields and variants, and the keys of a map,
    are distinct. *)
Definition text (s : list Z) : Prop := all_bytes s /\ lenZ s < two63 /\ utf8_valid s = true.
Definition typed_step (G : nat -> sty) (T : sty -> sval -> Prop) (ty : sty) (v : sval) : Prop :=
  let all_fields (fs : list (list Z * sty)) l :=
    NoDup (map fst fs) /\ Forall2 (fun f x => fst x = fst f /\ T (snd f) (snd x)) fs l in
  match ty, v with
  | YBool, SBool _ | YUnit, SUnit | YUnitStruct, SUnitStruct | YOpt _, SNone => True
  | YInt t, SInt t' z => t' = t /\ ity_min t <= z <= ity_max t
  | YF32, SF32 b => 0 <= b < two32
  | YF64, SF64 b => 0 <= b < two64
  | YChar, SChar s => text s /\ lenZ (utf8_chars s) = 1
  | YStr, SStr s => text s
  | YBytes, SBytes s => all_bytes s /\ lenZ s < two63
  | YOpt t, SSome w | YNewtype t, SNewtype w => T t w
  | YSeq t, SSeq l => Forall (T t) l
  | YTuple ts, STuple l | YTupleStruct ts, STupleStruct l => Forall2 T ts l
  | YMap kt vt, SMap l =>
      NoDup (map fst l) /\ Forall (fun kv => T kt (fst kv) /\ T vt (snd kv)) l
  | YStruct fs, SStruct l => all_fields fs l
  | YEnum vs, SUnitVariant name => NoDup (map fst vs) /\ In (name, VUnit) vs
  | YEnum vs, SNewtypeVariant name w =>
      NoDup (map fst vs) /\ exists t, In (name, VNewtype t) vs /\ T t w
  | YEnum vs, STupleVariant name l =>
      NoDup (map fst vs) /\ exists ts, In (name, VTuple ts) vs /\ Forall2 T ts l
  | YEnum vs, SStructVariant name l =>
      NoDup (map fst vs) /\ exists fs, In (name, VStruct fs) vs /\ all_fields fs l
  | YNamed i, w => T (G i) w
  | _, _ => False
  end.
Fixpoint typed (G : nat -> sty) (n : nat) : sty -> sval -> Prop :=
  match n with
  | O => fun _ _ => False
  | S n' => typed_step G (typed G n')
  end.

(** Values stored as null. *)
Fixpoint nullish (v : sval) : bool :=
  match v with
  | SNone | SUnitStruct => true
  | SSome w | SNewtype w => nullish w
  | _ => false
  end.
(** The shapes that can be read back: no newtype struct and no unit struct, no [Some] of
    something stored as null; and no f32 that is a signalling NaN (reading makes it quiet). *)
Fixpoint restorable (v : sval) : bool :=
  match v with
  | SNewtype _ | SUnitStruct => false
  | SF32 b => quiet32 b =? b
  | SSome w => negb (nullish w) && restorable w
  | SNewtypeVariant _ w => restorable w
  | SSeq l | STuple l | STupleStruct l | STupleVariant _ l => forallb restorable l
  | SMap l => forallb (fun kv => restorable (fst kv) && restorable (snd kv)) l
  | SStruct l | SStructVariant _ l => forallb (fun f => restorable (snd f)) l
  | _ => true
  end.

(** Equality of values up to the order of map entries. *)
Inductive same : sval -> sval -> Prop :=
| same_refl v : same v v
| same_some v w : same v w -> same (SSome v) (SSome w)
| same_variant name v w : same v w -> same (SNewtypeVariant name v) (SNewtypeVariant name w)
| same_seq l m : Forall2 same l m -> same (SSeq l) (SSeq m)
| same_tuple l m : Forall2 same l m -> same (STuple l) (STuple m)
| same_tuple_struct l m : Forall2 same l m -> same (STupleStruct l) (STupleStruct m)
| same_tuple_variant name l m : Forall2 same l m -> same (STupleVariant name l) (STupleVariant name m)
| same_map l l' m :
    Permutation l l' -> Forall2 (fun a b => fst a = fst b /\ same (snd a) (snd b)) l' m ->
    same (SMap l) (SMap m)
| same_struct l m :
    Forall2 (fun a b => fst a = fst b /\ same (snd a) (snd b)) l m -> same (SStruct l) (SStruct m)
| same_struct_variant name l m :
    Forall2 (fun a b => fst a = fst b /\ same (snd a) (snd b)) l m ->
    same (SStructVariant name l) (SStructVariant name m).

(** The dict keys written when serializing. *)
Definition keys_written (v : sval) : list (list Z) :=
  flat_map (fun o => match o with OpKey k => [k] | _ => [] end) (ser_ops v).
(** Keys that the table of shared keys can tell apart: it holds 2048 keys; keys of 16 bytes or
    more are cut to 15 bytes when looked up. *)
Definition shareable (keys : list (list Z)) : Prop :=
  lenZ keys < 2048 /\ (forall k, In k keys -> lenZ k <> 16) /\
  (forall k k', In k keys -> In k' keys -> 16 < lenZ k -> k' <> firstn 15 k).

(** The name of an enum variant. *)
Definition variant_of (v : sval) : option (list Z) :=
  match v with
  | SUnitVariant name | SNewtypeVariant name _ | STupleVariant name _ | SStructVariant name _ => Some name
  | _ => None
  end.

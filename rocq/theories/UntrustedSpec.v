(** Vocabulary for the properties about deserializing untrusted data. *)
From Verif Require Import Prelude SharedKeys Decode ReadSpec De.

(** The values in the slots of an array or dict (of a dict: keys and values), as an iterator
    over the slots returns them. *)
Inductive member (e : env) (a x : val) : Prop :=
| member_slot ty it k xs it' :
    value_type e a = Ret ty -> ty = TyArray \/ ty = TyDict ->
    arr_iter e a = Ret it -> iter_run k e it = Ret (xs, it') -> In x xs -> member e a x.
(** The values in a document, at any depth. *)
Inductive within (e : env) (r : val) : val -> Prop :=
| within_root : within e r r
| within_member a x : within e r a -> member e a x -> within e r x.

(** No float in the document has had its slice cut short. *)
Definition whole_floats (e : env) (r : val) : Prop :=
  forall x ty, within e r x -> value_type e x = Ret ty -> float_len ty <= v_len x.
(** Every array in the document has at least [m] elements. *)
Definition arrays_have (e : env) (r : val) (m : Z) : Prop :=
  forall x n, within e r x -> value_type e x = Ret TyArray -> arr_len e x = Ret n -> m <= n.

(** After at most [k] names and [Option]s the type is neither. *)
Fixpoint opens (G : nat -> sty) (k : nat) (t : sty) : Prop :=
  match k with
  | O => False
  | S k' => match t with YNamed n => opens G k' (G n) | YOpt t' => opens G k' t' | _ => True end
  end.

(** What a type may contain: the kinds of enum variants. *)
Inductive variants_allowed := NoEnums | UnitVariants | TupleVariants | AllVariants.
Definition level (a : variants_allowed) : Z :=
  match a with NoEnums => 0 | UnitVariants => 1 | TupleVariants => 2 | AllVariants => 3 end.
(** The shortest array in which the variants have their parts. *)
Definition enum_len (a : variants_allowed) : Z :=
  match a with NoEnums => 0 | UnitVariants => 1 | TupleVariants | AllVariants => 2 end.
Definition variant_level (v : vty) : Z :=
  match v with VUnit => 1 | VNewtype _ | VTuple _ => 2 | VStruct _ => 3 end.

Section Types.
Variables (G : nat -> sty) (K : nat) (a : variants_allowed).
(** [opens] everywhere in the type, and no other variants than those allowed. *)
Inductive ty_ok : sty -> Prop :=
| ok_bool : ty_ok YBool
| ok_int t : ty_ok (YInt t)
| ok_f32 : ty_ok YF32
| ok_f64 : ty_ok YF64
| ok_char : ty_ok YChar
| ok_str : ty_ok YStr
| ok_bytes : ty_ok YBytes
| ok_unit : ty_ok YUnit
| ok_unit_struct : ty_ok YUnitStruct
| ok_opt t : ty_ok t -> opens G K (YOpt t) -> ty_ok (YOpt t)
| ok_newtype t : ty_ok t -> ty_ok (YNewtype t)
| ok_seq t : ty_ok t -> ty_ok (YSeq t)
| ok_tuple ts : Forall ty_ok ts -> ty_ok (YTuple ts)
| ok_tuple_struct ts : Forall ty_ok ts -> ty_ok (YTupleStruct ts)
| ok_map k v : ty_ok k -> ty_ok v -> ty_ok (YMap k v)
| ok_struct fs : Forall (fun f => ty_ok (snd f)) fs -> ty_ok (YStruct fs)
| ok_enum vs : 1 <= level a -> Forall (fun v => variant_ok (snd v)) vs -> ty_ok (YEnum vs)
| ok_named n : opens G K (YNamed n) -> ty_ok (YNamed n)
with variant_ok : vty -> Prop :=
| vok_unit : variant_ok VUnit
| vok_newtype t : 2 <= level a -> ty_ok t -> variant_ok (VNewtype t)
| vok_tuple ts : 2 <= level a -> Forall ty_ok ts -> variant_ok (VTuple ts)
| vok_struct fs : 3 <= level a -> Forall (fun f => ty_ok (snd f)) fs -> variant_ok (VStruct fs).
End Types.
(** A type and the definitions it refers to. *)
Definition types_ok (G : nat -> sty) (K : nat) (a : variants_allowed) (ty : sty) : Prop :=
  (1 <= K)%nat /\ ty_ok G K a ty /\ forall n, ty_ok G K a (G n).

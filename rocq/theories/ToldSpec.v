(** Vocabulary for C96: what content says as a value of a type. *)
From Verif Require Import Prelude Utf8 Float Decode Read Encodable Ser De NumberSpec FieldsSpec.
From Coq Require Import QArith.
Local Open Scope Z_scope.

(** The content [t], taken as a value of the type [ty], is [s].  Integers are kept as they are and
    are in range; numbers become the nearest float; the entries of a dict that are not fields and the
    elements of an array that are beyond a tuple do not matter.  A variant of an enum is an array of its
    name and its content. *)
Inductive told (G : nat -> sty) : tree -> sty -> sval -> Prop :=
| told_bool b : told G (TBool b) YBool (SBool b)
| told_int z i : ity_min i <= z <= ity_max i -> told G (TInt z) (YInt i) (SInt i z)
| told_f32 b : told G (TF32 b) YF32 (SF32 b)
| told_f64 b : told G (TF64 b) YF64 (SF64 b)
| told_f32_f64 b x : (0 <= b < two64 -> rounded 23 8 (f64_number b) x) -> told G (TF64 b) YF32 (SF32 x)
| told_f64_f32 b x : (0 <= b < two32 -> same_number (f64_number x) (f32_number b)) -> told G (TF32 b) YF64 (SF64 x)
| told_f32_int z x : nearest 23 8 (inject_Z z) x -> told G (TInt z) YF32 (SF32 x)
| told_f64_int z x : nearest 52 11 (inject_Z z) x -> told G (TInt z) YF64 (SF64 x)
| told_char s : one_char s = true -> told G (TStr s) YChar (SChar s)
| told_str s : told G (TStr s) YStr (SStr s)
| told_str_data s : utf8_valid s = true -> told G (TData s) YStr (SStr s)
| told_bytes s : told G (TData s) YBytes (SBytes s)
| told_bytes_str s : told G (TStr s) YBytes (SBytes s)
| told_bytes_arr s : Forall (fun b => 0 <= b <= 255) s -> told G (TArr (map TInt s)) YBytes (SBytes s)
| told_unit : told G TUndef YUnit SUnit
| told_unit_struct : told G TUndef YUnitStruct SUnitStruct
| told_none ty : told G TNull (YOpt ty) SNone
| told_some t ty s : t <> TNull -> told G t ty s -> told G t (YOpt ty) (SSome s)
| told_newtype t l ty s : told G t ty s -> told G (TArr (t :: l)) (YNewtype ty) (SNewtype s)
| told_seq l ty ss : Forall2 (fun t s => told G t ty s) l ss -> told G (TArr l) (YSeq ty) (SSeq ss)
| told_tuple l tys ss : told_each G l tys ss -> told G (TArr l) (YTuple tys) (STuple ss)
| told_tuple_struct l tys ss : told_each G l tys ss -> told G (TArr l) (YTupleStruct tys) (STupleStruct ss)
| told_map l kt vt ss : Forall2 (fun kx s => told G (TStr (fst kx)) kt (fst s) /\ told G (snd kx) vt (snd s)) l ss ->
    told G (TDict l) (YMap kt vt) (SMap ss)
| told_struct l fields ss : map fst ss = map fst fields ->
    (forall n s, In (n, s) ss ->
      (exists t ty, In (n, t) l /\ lookup n fields = Some ty /\ told G t ty s) \/
      ((forall t, ~ In (n, t) l) /\ (forall ty, In (n, ty) fields -> is_option G ty = true) /\ s = SNone)) ->
    told G (TDict l) (YStruct fields) (SStruct ss)
| told_enum t name l variants vt s : t = TStr name \/ t = TData name -> lookup name variants = Some vt -> told_variant G name l vt s ->
    told G (TArr (t :: l)) (YEnum variants) s
| told_named t n s : told G t (G n) s -> told G t (YNamed n) s
with told_each (G : nat -> sty) : list tree -> list sty -> list sval -> Prop :=
| each_end l : told_each G l [] []
| each_next t l ty tys s ss : told G t ty s -> told_each G l tys ss -> told_each G (t :: l) (ty :: tys) (s :: ss)
with told_variant (G : nat -> sty) : list Z -> list tree -> vty -> sval -> Prop :=
| told_vunit name : told_variant G name [] VUnit (SUnitVariant name)
| told_vnewtype name t l ty s : told G t ty s -> told_variant G name (t :: l) (VNewtype ty) (SNewtypeVariant name s)
| told_vtuple name c l tys ss : length c = length tys -> told_each G c tys ss ->
    told_variant G name (TArr c :: l) (VTuple tys) (STupleVariant name ss)
| told_vstruct name c l fields ss : told G (TDict c) (YStruct fields) (SStruct ss) ->
    told_variant G name (TDict c :: l) (VStruct fields) (SStructVariant name ss).

(** No dict in the content has a key twice. *)
Inductive distinct : tree -> Prop :=
| dist_arr l : Forall distinct l -> distinct (TArr l)
| dist_dict l : NoDup (map fst l) -> Forall (fun kx => distinct (snd kx)) l -> distinct (TDict l)
| dist_other t : (forall l, t <> TArr l) -> (forall l, t <> TDict l) -> distinct t.

(** Specification: trees in which every dict is in order, and the calls that write a tree. *)
From Verif Require Import Prelude Float SharedKeys Decode Read Encodable Encoder BuilderSpec AscendSpec.
From Coq Require Import Sorted.

Definition scalar (t : tree) : Prop := match t with TArr _ | TDict _ => False | _ => True end.

(** Every dict has its keys in strictly ascending byte order. *)
Inductive ascending : tree -> Prop :=
| asc_scalar t : scalar t -> ascending t
| asc_arr l : Forall ascending l -> ascending (TArr l)
| asc_dict l : StronglySorted bytes_lt (map fst l) -> Forall (fun kx => ascending (snd kx)) l ->
    ascending (TDict l).

(** Every integer is between -2048 and 2047 (the ones that every integer type of the encoder writes
    in the same way). *)
Inductive small_ints : tree -> Prop :=
| si_int z : -2048 <= z <= 2047 -> small_ints (TInt z)
| si_scalar t : scalar t -> (forall z, t <> TInt z) -> small_ints t
| si_arr l : Forall small_ints l -> small_ints (TArr l)
| si_dict l : Forall (fun kx => small_ints (snd kx)) l -> small_ints (TDict l).

(** One way of writing the tree. *)
Fixpoint tree_calls (t : tree) : list op :=
  match t with
  | TNull => [OpValue ENull]
  | TUndef => [OpValue EUndef]
  | TBool b => [OpValue (EBool b)]
  | TInt z => [OpValue (EInt I64 z)]
  | TF32 b => [OpValue (EF32 b)]
  | TF64 b => [OpValue (EF64 b)]
  | TStr s => [OpValue (EStr s)]
  | TData s => [OpValue (EData s)]
  | TArr l => OpBeginArray 0 :: flat_map tree_calls l ++ [OpEndArray]
  | TDict l => OpBeginDict :: flat_map (fun kx => OpKey (fst kx) :: tree_calls (snd kx)) l ++ [OpEndDict]
  end.

(** The document an encoder makes of the value [v] of [src]. *)
Definition copied (c : cfg) (src : env) (v : val) : outcome (list Z) :=
  r <- write_fleece (fuel_of src) c enc_new src v ;;
  match snd r with Ok _ => finish c (fst r) | Err _ => Panic end.

(** Less than 2^60 bytes. *)
Definition not_huge (e : env) : Prop := lenZ (e_data e) < 1152921504606846976.

(** C95: a struct is read by the names of its fields (src/de.rs). *)
From Verif Require Import Prelude SharedKeys Decode Read Encodable ReadSpec Ser De UntrustedSpec Safety AlikeSpec FieldsSpec FieldsProofs Properties_Safety Properties_Alike.
From Coq Require Import Permutation.

(** Two documents whose dicts have the same entries for the fields of a struct, in any order, beside
    any other entries, with an optional field either null or left out, deserialize to the same
    struct.  The layouts may differ as for C94; the fields have types without enums; the bound on
    nesting is large enough for the entries that are passed over. *)
Theorem C95_fields_partial : forall e1 e2 l1 l2 G K fields fuel s,
  doc_reads e1 (TDict l1) -> doc_reads e2 (TDict l2) -> types_ok G K NoEnums (YStruct fields) ->
  NoDup (map fst fields) -> NoDup (map fst l1) -> NoDup (map fst l2) ->
  Permutation (filter (matters G fields) l1) (filter (matters G fields) l2) ->
  (3 <= fuel)%nat -> (nesting (TDict l1) <= fuel)%nat -> (nesting (TDict l2) <= fuel)%nat ->
  (de_from_bytes G fuel e1 (YStruct fields) = Ret (Ok s) <-> de_from_bytes G fuel e2 (YStruct fields) = Ret (Ok s)).
Proof. exact struct_names. Qed.
Print Assumptions C95_fields_partial.

(** {"aa": 1, "bb": null, "dd": 2}, narrow, and {"dd": 2, "yy": [3], "aa": 1}, wide. *)
Definition fd_plain : env := at4g true
  [0x42;97;97;0; 0x42;98;98;0; 0x42;100;100;0; 0x70;3; 0x80;7; 0;1; 0x80;7; 0x30;0; 0x80;7; 0;2; 0x80;7].
Definition fd_other : env := at4g false
  [0x42;97;97;0; 0x42;100;100;0; 0x42;121;121;0; 0x60;1; 0;3;
   0x78;3; 0x80;0;0;7; 0;2;0;0; 0x80;0;0;9; 0x80;0;0;9; 0x80;0;0;17; 0;1;0;0; 0x80;13].
Definition fd_plain_l : list (list Z * tree) := [([97;97], TInt 1); ([98;98], TNull); ([100;100], TInt 2)].
Definition fd_other_l : list (list Z * tree) := [([100;100], TInt 2); ([121;121], TArr [TInt 3]); ([97;97], TInt 1)].
Definition fd_fields : list (list Z * sty) :=
  [([98;98], YOpt YStr); ([97;97], YInt U8); ([100;100], YOpt (YInt I64))].
Example C95_example :
  doc_reads fd_plain (TDict fd_plain_l) /\ doc_reads fd_other (TDict fd_other_l) /\
  types_ok (fun _ => YUnit) 2 NoEnums (YStruct fd_fields) /\
  NoDup (map fst fd_fields) /\ NoDup (map fst fd_plain_l) /\ NoDup (map fst fd_other_l) /\
  Permutation (filter (matters (fun _ => YUnit) fd_fields) fd_plain_l) (filter (matters (fun _ => YUnit) fd_fields) fd_other_l) /\
  nesting (TDict fd_other_l) = 3%nat /\
  de_from_bytes (fun _ => YUnit) 3 fd_plain (YStruct fd_fields) =
    Ret (Ok (SStruct [([98;98], SNone); ([97;97], SInt U8 1); ([100;100], SSome (SInt I64 2))])).
Proof.
  split; [exists (V 12 14), 3%nat; vm_compute; auto|]. split; [exists (V 16 26), 3%nat; vm_compute; auto|].
  split. { split; [auto|]. split; [|intros n; constructor]. repeat constructor. }
  split; [repeat (constructor; [cbn; intuition discriminate|]); constructor|].
  split; [repeat (constructor; [cbn; intuition discriminate|]); constructor|].
  split; [repeat (constructor; [cbn; intuition discriminate|]); constructor|].
  split; [vm_compute; apply perm_swap|]. split; vm_compute; reflexivity.
Qed.

(** ["AA", {"bb": 2}] and ["AA", {"aa": 1, "bb": null}] and ["AA", {"aa": 1}] *)
Definition fd_bb : env := at4g true
  [0x42;65;65;0; 0x42;98;98;0; 0x70;1; 0x80;3; 0;2; 0x60;2; 0x80;8; 0x80;5; 0x80;3].
Definition fd_null : env := at4g true
  [0x42;65;65;0; 0x42;97;97;0; 0x42;98;98;0; 0x70;2; 0x80;5; 0;1; 0x80;5; 0x30;0; 0x60;2; 0x80;12; 0x80;7; 0x80;3].
Definition fd_aa : env := at4g true
  [0x42;65;65;0; 0x42;97;97;0; 0x70;1; 0x80;3; 0;1; 0x60;2; 0x80;8; 0x80;5; 0x80;3].
Definition fd_variant (l : list (list Z * tree)) : tree := TArr [TStr [65;65]; TDict l].

(** Not so for a variant of an enum with named fields: it refuses a dict with another entry... *)
Theorem C95_refuted_unknown : exists e1 e2 l1 l2 fields s,
  doc_reads e1 (fd_variant l1) /\ doc_reads e2 (fd_variant l2) /\
  filter (matters (fun _ => YUnit) fields) l1 = filter (matters (fun _ => YUnit) fields) l2 /\
  de_from_bytes (fun _ => YUnit) 9 e1 (YEnum [([65;65], VStruct fields)]) = Ret (Ok s) /\
  exists er, de_from_bytes (fun _ => YUnit) 9 e2 (YEnum [([65;65], VStruct fields)]) = Ret (Err er).
Proof.
  exists fd_bb, al_named1, [([98;98], TInt 2)], [([97;97], TInt 1); ([98;98], TInt 2)], [([98;98], YInt U8)],
    (SStructVariant [65;65] [([98;98], SInt U8 2)]).
  split; [exists (V 14 6), 3%nat; vm_compute; auto|]. split; [exists (V 22 6), 3%nat; vm_compute; auto|].
  split; [reflexivity|]. split; [vm_compute; reflexivity|]. eexists. vm_compute. reflexivity.
Qed.
Print Assumptions C95_refuted_unknown.

(** ... and one that leaves out an optional field. *)
Theorem C95_refuted_absent : exists e1 e2 l1 l2 fields s,
  doc_reads e1 (fd_variant l1) /\ doc_reads e2 (fd_variant l2) /\
  filter (matters (fun _ => YUnit) fields) l1 = filter (matters (fun _ => YUnit) fields) l2 /\
  de_from_bytes (fun _ => YUnit) 9 e1 (YEnum [([65;65], VStruct fields)]) = Ret (Ok s) /\
  exists er, de_from_bytes (fun _ => YUnit) 9 e2 (YEnum [([65;65], VStruct fields)]) = Ret (Err er).
Proof.
  exists fd_null, fd_aa, [([97;97], TInt 1); ([98;98], TNull)], [([97;97], TInt 1)], [([97;97], YInt U8); ([98;98], YOpt (YInt U8))],
    (SStructVariant [65;65] [([97;97], SInt U8 1); ([98;98], SNone)]).
  split; [exists (V 22 6), 3%nat; vm_compute; auto|]. split; [exists (V 14 6), 3%nat; vm_compute; auto|].
  split; [reflexivity|]. split; [vm_compute; reflexivity|]. eexists. vm_compute. reflexivity.
Qed.
Print Assumptions C95_refuted_absent.

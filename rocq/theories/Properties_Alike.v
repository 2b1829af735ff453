(** C94: deserializing depends only on what the document reads as (src/de.rs). *)
From Verif Require Import Prelude SharedKeys Decode Read Encodable ReadSpec Ser De UntrustedSpec Safety AlikeSpec AlikeProofs AlikeEnums Properties_Safety.

(** Two documents may be laid out in different ways: narrow or wide collections, values in line or
    behind pointers, keys as texts or as shared numbers, numbers in any of their encodings, at
    other addresses, in debug or release builds.  If both are accepted, read as the same content and have
    texts for keys, then they deserialize to the same result, be it a value or an error, into
    every type without enums. *)
Theorem C94_alike_partial : forall e1 e2 t G K ty,
  doc_reads e1 t -> doc_reads e2 t -> types_ok G K NoEnums ty ->
  forall fuel, de_from_bytes G fuel e1 ty = de_from_bytes G fuel e2 ty.
Proof. exact alike_same. Qed.
Print Assumptions C94_alike_partial.

(** {"ab": [5, null, 1000]} in three layouts: narrow, wide, and with shared keys and an unsigned
    number. *)
Definition al_narrow : env := mk_env false 4294967296
  [0x42;97;98;0; 0x11;0xe8;3;0; 0x60;3; 0;5; 0x30;0; 0x80;5; 0x70;1; 0x80;9; 0x80;6; 0x80;3] None.
Definition al_wide : env := mk_env true 8589934592
  [0x42;97;98;0; 0x11;0xe8;3;0; 0x68;3; 0;5;0;0; 0x30;0;0;0; 0x80;0;0;7; 0x78;1; 0x80;0;0;12; 0x80;0;0;10; 0x80;5] None.
Definition al_shared : env := mk_env true 4294967296
  [0x19;0xe8;3;0; 0x60;3; 0;5; 0x30;0; 0x80;5; 0x70;1; 0;0; 0x80;6; 0x80;3] (Some [[97;98]]).
Definition al_tree : tree := TDict [([97;98], TArr [TInt 5; TNull; TInt 1000])].
Definition al_ty : sty := YStruct [([97;98], YSeq (YOpt (YInt I32))); ([99], YOpt YStr)].
Example C94_example :
  doc_reads al_narrow al_tree /\ doc_reads al_wide al_tree /\ doc_reads al_shared al_tree /\
  types_ok (fun _ => YUnit) 2 NoEnums al_ty /\
  de_from_bytes (fun _ => YUnit) 9 al_wide al_ty =
    Ret (Ok (SStruct [([97;98], SSeq [SSome (SInt I32 5); SNone; SSome (SInt I32 1000)]); ([99], SNone)])) /\
  de_from_bytes (fun _ => YUnit) 9 al_shared (YMap YStr (YTuple [YF64; YUnit])) = Ret (Err DeInvalidType).
Proof.
  split; [exists (V 16 6), 3%nat; vm_compute; auto|]. split; [exists (V 22 10), 3%nat; vm_compute; auto|].
  split; [exists (V 12 6), 3%nat; vm_compute; auto|].
  split; [|split; vm_compute; reflexivity]. split; [auto|]. split; [|intros n; constructor].
  repeat constructor.
Qed.

(** With enums: for content in which the arrays that are to be enums name their variant and have its
    content.  Variants with named fields are included for documents without shared keys. *)
Theorem C94_alike_enums_partial : forall e1 e2 t named G fuel ty,
  wf_env e1 -> wf_env e2 -> (named = true -> e_sk e1 = None /\ e_sk e2 = None) ->
  doc_reads e1 t -> doc_reads e2 t -> enums_fit named G fuel ty t = true ->
  de_from_bytes G fuel e1 ty = de_from_bytes G fuel e2 ty.
Proof. exact alike_enums. Qed.
Print Assumptions C94_alike_enums_partial.

(** ["BB", [5, 7]], narrow and wide. *)
Definition al_enum1 : env := at4g true
  [0x42;66;66;0; 0x60;2; 0;5; 0;7; 0x60;2; 0x80;6; 0x80;5; 0x80;3].
Definition al_enum2 : env := at4g false
  [0x42;66;66;0; 0x60;2; 0;5; 0;7; 0x68;2; 0x80;0;0;6; 0x80;0;0;6; 0x80;5].
Definition al_enum_tree : tree := TArr [TStr [66;66]; TArr [TInt 5; TInt 7]].
Definition al_enum_ty : sty := YEnum [([65;65], VUnit); ([66;66], VTuple [YInt U8; YOpt (YInt U8)])].
Example C94_enums_example :
  wf_env al_enum1 /\ wf_env al_enum2 /\ doc_reads al_enum1 al_enum_tree /\ doc_reads al_enum2 al_enum_tree /\
  enums_fit false (fun _ => YUnit) 9 al_enum_ty al_enum_tree = true /\
  de_from_bytes (fun _ => YUnit) 9 al_enum2 al_enum_ty =
    Ret (Ok (STupleVariant [66;66] [SInt U8 5; SSome (SInt U8 7)])).
Proof.
  split; [apply at4g_wf; [reflexivity|cbn; lia]|]. split; [apply at4g_wf; [reflexivity|cbn; lia]|].
  split; [exists (V 10 6), 3%nat; vm_compute; auto|]. split; [exists (V 10 10), 3%nat; vm_compute; auto|].
  split; vm_compute; reflexivity.
Qed.

(** ["AA", {"aa": 1, "bb": 2}], the dict narrow and wide. *)
Definition al_named1 : env := at4g true
  [0x42;65;65;0; 0x42;97;97;0; 0x42;98;98;0; 0x70;2; 0x80;5; 0;1; 0x80;5; 0;2; 0x60;2; 0x80;12; 0x80;7; 0x80;3].
Definition al_named2 : env := at4g false
  [0x42;65;65;0; 0x42;97;97;0; 0x42;98;98;0; 0x78;2; 0x80;0;0;5; 0;1;0;0; 0x80;0;0;7; 0;2;0;0; 0x60;2; 0x80;16; 0x80;11; 0x80;3].
Definition al_named_tree : tree := TArr [TStr [65;65]; TDict [([97;97], TInt 1); ([98;98], TInt 2)]].
Definition al_named_ty : sty := YEnum [([65;65], VStruct [([98;98], YInt U8); ([97;97], YOpt (YInt U8))])].
Example C94_named_example :
  wf_env al_named1 /\ wf_env al_named2 /\ e_sk al_named1 = None /\ e_sk al_named2 = None /\
  doc_reads al_named1 al_named_tree /\ doc_reads al_named2 al_named_tree /\
  enums_fit true (fun _ => YUnit) 9 al_named_ty al_named_tree = true /\
  de_from_bytes (fun _ => YUnit) 9 al_named2 al_named_ty =
    Ret (Ok (SStructVariant [65;65] [([98;98], SInt U8 2); ([97;97], SSome (SInt U8 1))])).
Proof.
  split; [apply at4g_wf; [reflexivity|cbn; lia]|]. split; [apply at4g_wf; [reflexivity|cbn; lia]|].
  split; [reflexivity|]. split; [reflexivity|].
  split; [exists (V 22 6), 3%nat; vm_compute; auto|]. split; [exists (V 30 6), 3%nat; vm_compute; auto|].
  split; vm_compute; reflexivity.
Qed.

(** The property fails for enums, and for dicts with keys that are not texts.  The number of a
    variant is understood only if it is stored as an unsigned integer, but the number 1 reads the
    same however it is stored. *)
Definition al_short : env := mk_env true 4294967296 [0x60;1; 0;1; 0x80;2] None.
Definition al_unsigned : env := mk_env true 4294967296 [0x18;1; 0x60;1; 0x80;2; 0x80;2] None.
Theorem C94_refuted_enum : exists e1 e2 t G K ty fuel,
  doc_reads e1 t /\ doc_reads e2 t /\ types_ok G K UnitVariants ty /\
  de_from_bytes G fuel e1 ty <> de_from_bytes G fuel e2 ty.
Proof.
  exists al_short, al_unsigned, (TArr [TInt 1]), (fun _ => YUnit), 1%nat, (YEnum [([65], VUnit); ([66], VUnit)]), 5%nat.
  split; [exists (V 0 4), 3%nat; vm_compute; auto|]. split; [exists (V 2 4), 3%nat; vm_compute; auto|].
  split; [|vm_compute; discriminate]. split; [auto|]. split; [|intros n; constructor]. constructor; [cbn; discriminate|].
  repeat constructor.
Qed.
Print Assumptions C94_refuted_enum.
(** ["AA", {"bb": 1, "aa": 2}] with texts for keys, which are then in the wrong order, and with numbers,
    which are in the right one: the field "bb" is found in the second only. *)
Definition al_texts : env := at4g true
  [0x42;65;65;0; 0x42;98;98;0; 0x42;97;97;0; 0x70;2; 0x80;5; 0;1; 0x80;5; 0;2; 0x60;2; 0x80;12; 0x80;7; 0x80;3].
Definition al_numbers : env := mk_env true 4294967296
  [0x42;65;65;0; 0x70;2; 0;0; 0;1; 0;1; 0;2; 0x60;2; 0x80;8; 0x80;7; 0x80;3] (Some [[98;98]; [97;97]]).
Theorem C94_refuted_named : exists e1 e2 t G fuel ty,
  doc_reads e1 t /\ doc_reads e2 t /\ enums_fit true G fuel ty t = true /\
  de_from_bytes G fuel e1 ty <> de_from_bytes G fuel e2 ty.
Proof.
  exists al_texts, al_numbers, (TArr [TStr [65;65]; TDict [([98;98], TInt 1); ([97;97], TInt 2)]]), (fun _ => YUnit), 9%nat, al_named_ty.
  split; [exists (V 22 6), 3%nat; vm_compute; auto|]. split; [exists (V 14 6), 3%nat; vm_compute; auto|].
  split; vm_compute; [reflexivity|discriminate].
Qed.
Print Assumptions C94_refuted_named.
(** The entry with a number for a key is passed over in silence when the dict is iterated, and is an
    error when it is deserialized. *)
Definition al_numbered : env := mk_env true 4294967296 [0x70;1; 0;0; 0;5; 0x80;3] None.
Definition al_empty : env := mk_env true 4294967296 [0x70;0; 0x80;1] None.
Definition read_root (e : env) : outcome tree :=
  r <- from_bytes e ;; match r with Ok v => read_doc e v | Err _ => Panic end.
Theorem C94_refuted_keys : exists e1 e2 t G ty fuel,
  read_root e1 = Ret t /\ read_root e2 = Ret t /\ types_ok G 1 NoEnums ty /\
  de_from_bytes G fuel e1 ty <> de_from_bytes G fuel e2 ty.
Proof.
  exists al_numbered, al_empty, (TDict []), (fun _ => YUnit), (YMap YStr (YInt I32)), 5%nat.
  split; [vm_compute; reflexivity|]. split; [vm_compute; reflexivity|]. split; [|vm_compute; discriminate].
  split; [auto|]. split; [repeat constructor|intros n; constructor].
Qed.
Print Assumptions C94_refuted_keys.

(** C96: what a document deserializes to is what it says (src/de.rs). *)
From Verif Require Import Prelude SharedKeys Decode Read Encodable ReadSpec Ser De UntrustedSpec Safety AlikeSpec FieldsSpec ToldSpec ToldProofs Properties_Safety Properties_Alike Properties_Fields.

(** If a document reads as [t] and deserializes to [s], then [s] is [t] as a value of the type:
    nothing is made up, lost, reordered or put in another field.  For types without enums. *)
Theorem C96_told_partial : forall e t G K ty fuel s,
  doc_reads e t -> types_ok G K NoEnums ty -> de_from_bytes G fuel e ty = Ret (Ok s) -> told G t ty s.
Proof. exact doc_told. Qed.
Print Assumptions C96_told_partial.

(** {"aa": 1, "bb": null, "dd": 2} as a map of optional f64, and as a struct. *)
Example C96_example :
  doc_reads fd_plain (TDict fd_plain_l) /\
  types_ok (fun _ => YUnit) 2 NoEnums (YMap YStr (YOpt YF64)) /\
  de_from_bytes (fun _ => YUnit) 4 fd_plain (YMap YStr (YOpt YF64)) =
    Ret (Ok (SMap [(SStr [97;97], SSome (SF64 0x3FF0000000000000)); (SStr [98;98], SNone); (SStr [100;100], SSome (SF64 0x4000000000000000))])) /\
  told (fun _ => YUnit) (TDict fd_plain_l) (YStruct fd_fields)
    (SStruct [([98;98], SNone); ([97;97], SInt U8 1); ([100;100], SSome (SInt I64 2))]).
Proof.
  split; [exists (V 12 14), 3%nat; vm_compute; auto|].
  split. { split; [auto|]. split; [|intros n; constructor]. repeat constructor. }
  split; [vm_compute; reflexivity|].
  apply (C96_told_partial fd_plain (TDict fd_plain_l) (fun _ => YUnit) 2 (YStruct fd_fields) 3); [apply C95_example|apply C95_example|vm_compute; reflexivity].
Qed.

(** With enums, with all kinds of variants and with shared keys: for content in which the arrays that
    are to be enums start with the name of the variant, not its number, and have its content. *)
Theorem C96_told_enums_partial : forall e t G ty fuel s,
  wf_env e -> doc_reads e t -> enums_fit true G fuel ty t = true -> de_from_bytes G fuel e ty = Ret (Ok s) -> told G t ty s.
Proof. exact doc_told_enums. Qed.
Print Assumptions C96_told_enums_partial.
Example C96_enums_example :
  wf_env al_named1 /\ doc_reads al_named1 al_named_tree /\ enums_fit true (fun _ => YUnit) 9 al_named_ty al_named_tree = true /\
  de_from_bytes (fun _ => YUnit) 9 al_named1 al_named_ty =
    Ret (Ok (SStructVariant [65;65] [([98;98], SInt U8 2); ([97;97], SSome (SInt U8 1))])) /\
  told (fun _ => YUnit) al_enum_tree al_enum_ty (STupleVariant [66;66] [SInt U8 5; SSome (SInt U8 7)]).
Proof.
  split; [apply C94_named_example|]. split; [apply C94_named_example|]. split; [apply C94_named_example|]. split; [vm_compute; reflexivity|].
  apply (C96_told_enums_partial al_enum2 al_enum_tree (fun _ => YUnit) al_enum_ty 9); apply C94_enums_example.
Qed.

(** A number deserializes to an integer type exactly when it is in range. *)
Theorem C96_integer : forall e z i G fuel, doc_reads e (TInt z) ->
  (ity_min i <= z <= ity_max i -> de_from_bytes G (S fuel) e (YInt i) = Ret (Ok (SInt i z))) /\
  (~ ity_min i <= z <= ity_max i -> exists er, de_from_bytes G (S fuel) e (YInt i) = Ret (Err er)).
Proof. exact doc_integer. Qed.
Print Assumptions C96_integer.
Example C96_integer_example : let e := at4g true [0x11;0xe8;3;0; 0x80;2] in
  doc_reads e (TInt 1000) /\ ity_max U8 < 1000 /\ de_from_bytes (fun _ => YUnit) 1 e (YInt U16) = Ret (Ok (SInt U16 1000)).
Proof. cbv zeta. split; [exists (V 0 4), 3%nat; vm_compute; auto|]. split; vm_compute; reflexivity. Qed.

(** Not so for a dict with keys that are not texts: {data "ab": 5} reads as {"": 5} and deserializes
    to a map with the key "ab". *)
Theorem C96_refuted_keys : exists e r t ty s,
  from_bytes e = Ret (Ok r) /\ read_doc e r = Ret t /\ de_from_bytes (fun _ => YUnit) 9 e ty = Ret (Ok s) /\
  ~ told (fun _ => YUnit) t ty s.
Proof.
  exists (at4g true [0x52;97;98;0; 0x70;1; 0x80;3; 0;5; 0x80;3]), (V 4 6), (TDict [([], TInt 5)]), (YMap YStr (YInt U8)), (SMap [(SStr [97;98], SInt U8 5)]).
  split; [vm_compute; reflexivity|]. split; [vm_compute; reflexivity|]. split; [vm_compute; reflexivity|].
  intros H. inversion H as [| | | | | | | | | | | | | | | | | | | | | |l kt vt ss HF| | |]; subst. inversion HF as [|? ? ? ? [Hk _] _]; subst. inversion Hk.
Qed.
Print Assumptions C96_refuted_keys.

(** Nor for an enum: ["AA"] deserializes to the variant "AA" with the content 5, which is what lies
    behind the array. *)
Theorem C96_refuted_beyond : exists e t ty s,
  doc_reads e t /\ de_from_bytes (fun _ => YUnit) 9 e ty = Ret (Ok s) /\ ~ told (fun _ => YUnit) t ty s.
Proof.
  exists (at4g true [0x42;65;65;0; 0x60;1; 0x80;3; 0;5; 0x80;3]), (TArr [TStr [65;65]]), (YEnum [([65;65], VNewtype (YInt U8))]),
    (SNewtypeVariant [65;65] (SInt U8 5)).
  split; [exists (V 4 6), 3%nat; vm_compute; auto|]. split; [vm_compute; reflexivity|].
  intros H. inversion H as [| | | | | | | | | | | | | | | | | | | | | | | |t name l vs vt s Hn Hin Hv|]; subst. inversion Hv.
Qed.
Print Assumptions C96_refuted_beyond.

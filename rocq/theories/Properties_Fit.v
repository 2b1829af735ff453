(** C97: content that fits a type deserializes into it (src/de.rs). *)
From Verif Require Import Prelude SharedKeys Decode Read Encodable ReadSpec Ser De UntrustedSpec Safety AlikeSpec FieldsSpec ToldSpec ToldProofs AscendSpec FitProofs FitNamed Properties_Safety Properties_Alike Properties_Fields Properties_Told.
From Coq Require Import Sorted Permutation.

(** A document whose content is a value of the type, as [told] says it, is not refused: it
    deserializes, without a panic, to such a value.  Enums may have all but variants with named
    fields. *)
Theorem C97_fits_partial : forall e t G K a ty s0 fuel,
  wf_env e -> doc_reads e t -> types_ok G K a ty -> a <> AllVariants -> distinct t -> told G t ty s0 ->
  ((K + 1) * (nesting t + 1) <= fuel)%nat -> exists s, de_from_bytes G fuel e ty = Ret (Ok s) /\ told G t ty s.
Proof. exact doc_fits. Qed.
Print Assumptions C97_fits_partial.

(** So a document deserializes into a type without enums exactly when its content fits. *)
Theorem C97_exactly_partial : forall e t G K ty fuel,
  wf_env e -> doc_reads e t -> types_ok G K NoEnums ty -> distinct t -> ((K + 1) * (nesting t + 1) <= fuel)%nat ->
  ((exists s, de_from_bytes G fuel e ty = Ret (Ok s)) <-> (exists s, told G t ty s)).
Proof. exact doc_fits_iff. Qed.
Print Assumptions C97_exactly_partial.
(** With enums: if the arrays that are to be enums start with the name of a variant and have its
    content ([enums_fit], as for C94 and C96). *)
Theorem C97_exactly_enums_partial : forall e t G K a ty fuel,
  wf_env e -> doc_reads e t -> types_ok G K a ty -> a <> AllVariants -> distinct t ->
  enums_fit true G fuel ty t = true -> ((K + 1) * (nesting t + 1) <= fuel)%nat ->
  ((exists s, de_from_bytes G fuel e ty = Ret (Ok s)) <-> (exists s, told G t ty s)).
Proof. exact doc_fits_iff_enums. Qed.
Print Assumptions C97_exactly_enums_partial.

(** {"aa": 1, "bb": null, "dd": 2} fits the struct with the fields "bb", "aa" and "dd", and not one
    with a field "xx". *)
Example C97_example :
  wf_env fd_plain /\ doc_reads fd_plain (TDict fd_plain_l) /\ distinct (TDict fd_plain_l) /\
  types_ok (fun _ => YUnit) 2 NoEnums (YStruct fd_fields) /\
  told (fun _ => YUnit) (TDict fd_plain_l) (YStruct fd_fields)
    (SStruct [([98;98], SNone); ([97;97], SInt U8 1); ([100;100], SSome (SInt I64 2))]) /\
  (forall s, ~ told (fun _ => YUnit) (TDict fd_plain_l) (YStruct [([120;120], YInt U8)]) s).
Proof.
  split; [apply at4g_wf; vm_compute; reflexivity|]. split; [apply C95_example|].
  split. { constructor; [repeat (constructor; [cbn; intuition discriminate|]); constructor|]. repeat constructor; discriminate. }
  split; [apply C95_example|]. split; [apply C96_example|].
  intros s H. inversion H as [| | | | | | | | | | | | | | | | | | | | | | |l fs ss Hm Hin| |]; subst.
  destruct ss as [|[n s] [|]]; try discriminate. cbn in Hm. injection Hm as ->.
  destruct (Hin _ _ (or_introl eq_refl)) as [(t & ty & [A|[A|[A|[]]]] & _)|(_ & B & _)]; try discriminate.
  specialize (B _ (or_introl eq_refl)). discriminate.
Qed.

(** ["BB", [5, 7]] fits an enum with the variant "BB" of two numbers, one of them optional. *)
Example C97_enums_example :
  wf_env al_enum2 /\ doc_reads al_enum2 al_enum_tree /\ distinct al_enum_tree /\
  types_ok (fun _ => YUnit) 2 TupleVariants al_enum_ty /\
  enums_fit true (fun _ => YUnit) 12 al_enum_ty al_enum_tree = true /\ nesting al_enum_tree = 3%nat /\
  told (fun _ => YUnit) al_enum_tree al_enum_ty (STupleVariant [66;66] [SInt U8 5; SSome (SInt U8 7)]).
Proof.
  split; [apply at4g_wf; vm_compute; reflexivity|]. split; [apply C94_enums_example|].
  split. { repeat constructor; discriminate. }
  split. { split; [auto|]. split; [|intros n; constructor]. repeat constructor; cbn; lia. }
  split; [vm_compute; reflexivity|]. split; [vm_compute; reflexivity|]. apply C96_enums_example.
Qed.

(** A variant with named fields: if its dict has the fields and no others, its keys are texts, and
    they ascend. *)
Theorem C97_fits_named_partial : forall e name l rest variants fields G K a s0 fuel,
  let t := TArr (TStr name :: TDict l :: rest) in
  wf_env e -> e_sk e = None -> doc_reads e t -> lookup name variants = Some (VStruct fields) ->
  types_ok G K a (YStruct fields) -> a <> AllVariants -> distinct t ->
  StronglySorted bytes_lt (map fst l) -> Permutation (map fst fields) (map fst l) -> told G t (YEnum variants) s0 ->
  ((K + 1) * (nesting t + 1) <= fuel)%nat ->
  exists s, de_from_bytes G fuel e (YEnum variants) = Ret (Ok s) /\ told G t (YEnum variants) s.
Proof. exact doc_fits_named. Qed.
Print Assumptions C97_fits_named_partial.
(** ["AA", {"aa": 1, "bb": 2}] *)
Example C97_named_example : let l := [([97;97], TInt 1); ([98;98], TInt 2)] in
  let fields := [([98;98], YInt U8); ([97;97], YOpt (YInt U8))] in
  wf_env al_named1 /\ e_sk al_named1 = None /\ doc_reads al_named1 (TArr [TStr [65;65]; TDict l]) /\
  types_ok (fun _ => YUnit) 2 NoEnums (YStruct fields) /\ distinct (TArr [TStr [65;65]; TDict l]) /\
  StronglySorted bytes_lt (map fst l) /\ Permutation (map fst fields) (map fst l) /\
  told (fun _ => YUnit) (TArr [TStr [65;65]; TDict l]) (YEnum [([65;65], VStruct fields)])
    (SStructVariant [65;65] [([98;98], SInt U8 2); ([97;97], SSome (SInt U8 1))]).
Proof.
  cbv zeta. split; [apply C94_named_example|]. split; [reflexivity|]. split; [apply C94_named_example|].
  split. { split; [auto|]. split; [|intros n; constructor]. repeat constructor. }
  split. { constructor. constructor; [apply dist_other; discriminate|]. constructor; [|constructor].
    constructor; [repeat (constructor; [cbn; intuition discriminate|]); constructor|]. repeat constructor; discriminate. }
  split. { repeat constructor. }
  split; [apply perm_swap|].
  apply (C96_told_enums_partial al_named1 al_named_tree (fun _ => YUnit) al_named_ty 9); try apply C94_named_example; apply C96_enums_example.
Qed.

(** Not so if they do not ascend, which a document may have: ["AA", {"bb": 1, "aa": 2}]. *)
Theorem C97_refuted_order : exists e l fields s er, let t := TArr [TStr [65;65]; TDict l] in
  wf_env e /\ checked e /\ e_sk e = None /\ doc_reads e t /\ distinct t /\ Permutation (map fst fields) (map fst l) /\
  told (fun _ => YUnit) t (YEnum [([65;65], VStruct fields)]) s /\
  de_from_bytes (fun _ => YUnit) 1000 e (YEnum [([65;65], VStruct fields)]) = Ret (Err er).
Proof.
  exists al_texts, [([98;98], TInt 1); ([97;97], TInt 2)], [([98;98], YInt U8); ([97;97], YInt U8)],
    (SStructVariant [65;65] [([98;98], SInt U8 1); ([97;97], SInt U8 2)]).
  eexists. cbv zeta. split; [apply at4g_wf; vm_compute; reflexivity|]. split; [left; reflexivity|]. split; [reflexivity|].
  split; [exists (V 22 6), 3%nat; vm_compute; auto|].
  split. { constructor. constructor; [apply dist_other; discriminate|]. constructor; [|constructor].
    constructor; [repeat (constructor; [cbn; intuition discriminate|]); constructor|]. repeat constructor; discriminate. }
  split; [apply Permutation_refl|]. split; [|vm_compute; reflexivity].
  eapply told_enum; [left; reflexivity|reflexivity|]. constructor. constructor; [reflexivity|].
  intros n s [E|[E|[]]]; injection E as <- <-; left; [exists (TInt 1), (YInt U8)|exists (TInt 2), (YInt U8)];
    (split; [cbn; auto|]); (split; [reflexivity|]); constructor; vm_compute; split; discriminate.
Qed.
Print Assumptions C97_refuted_order.

(** Nor for a variant with named fields: ["AA", {"aa": 1}] fits a variant "AA" with the field "aa"
    and the optional field "bb", and is refused. *)
Theorem C97_refuted_variant : exists e t ty s er,
  wf_env e /\ checked e /\ doc_reads e t /\ distinct t /\ told (fun _ => YUnit) t ty s /\
  de_from_bytes (fun _ => YUnit) 1000 e ty = Ret (Err er).
Proof.
  exists fd_aa, (fd_variant [([97;97], TInt 1)]), (YEnum [([65;65], VStruct [([97;97], YInt U8); ([98;98], YOpt (YInt U8))])]),
    (SStructVariant [65;65] [([97;97], SInt U8 1); ([98;98], SNone)]).
  eexists. split; [apply at4g_wf; vm_compute; reflexivity|]. split; [left; reflexivity|].
  split; [exists (V 14 6), 3%nat; vm_compute; auto|].
  split. { repeat constructor; try discriminate. intros []. }
  split; [|vm_compute; reflexivity].
  eapply told_enum; [left; reflexivity|reflexivity|]. constructor. constructor; [reflexivity|].
  intros n s [E|[E|[]]]; injection E as <- <-.
  - left. exists (TInt 1), (YInt U8). split; [left; reflexivity|]. split; [reflexivity|]. constructor. vm_compute. split; discriminate.
  - right. split; [intros t [E|[]]; discriminate|]. split; [|reflexivity]. intros ty [E|[E|[]]]; [discriminate|injection E as <-; reflexivity].
Qed.
Print Assumptions C97_refuted_variant.

(** Nor for a dict that has a key twice, which a document may have: {"aa": 1, "aa": 1}. *)
Theorem C97_refuted_twice : exists e t ty s er,
  wf_env e /\ checked e /\ doc_reads e t /\ types_ok (fun _ => YUnit) 2 NoEnums ty /\ told (fun _ => YUnit) t ty s /\
  de_from_bytes (fun _ => YUnit) 1000 e ty = Ret (Err er).
Proof.
  exists (at4g true [0x42;97;97;0; 0x70;2; 0x80;3; 0;1; 0x80;5; 0;1; 0x80;5]), (TDict [([97;97], TInt 1); ([97;97], TInt 1)]),
    (YStruct [([97;97], YInt U8)]), (SStruct [([97;97], SInt U8 1)]).
  eexists. split; [apply at4g_wf; vm_compute; reflexivity|]. split; [left; reflexivity|].
  split; [exists (V 4 10), 3%nat; vm_compute; auto|].
  split. { split; [auto|]. split; [|intros n; constructor]. repeat constructor. }
  split; [|vm_compute; reflexivity]. constructor; [reflexivity|].
  intros n s [E|[]]. injection E as <- <-. left. exists (TInt 1), (YInt U8). split; [left; reflexivity|]. split; [reflexivity|]. constructor. vm_compute. split; discriminate.
Qed.
Print Assumptions C97_refuted_twice.

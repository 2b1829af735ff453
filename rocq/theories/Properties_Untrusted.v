(** C61-C63: deserializing and formatting untrusted data (src/de.rs, the [Debug] impls). *)
From Verif Require Import Prelude SharedKeys Decode Read Encodable ReadSpec De UntrustedSpec Untrusted Safety Navigate Properties_Safety Ser.

(* ---------- C61 ---------- *)

(** Deserializing any bytes into any type without enums never reads outside the buffer, whatever
    the nesting bound, and ends: [K] bounds the names and [Option]s between one sequence, map or
    struct type and the next. *)
Theorem C61_in_bounds_partial : forall e G K ty,
  wf_env e -> checked e -> types_ok G K NoEnums ty ->
  (forall fuel, de_from_bytes G fuel e ty <> UB) /\
  (forall fuel, ((K + 1) * fuel_of e <= fuel)%nat -> safe (de_from_bytes G fuel e ty)).
Proof.
  intros e G K ty Hwf Hc Hty. exact (de_bytes_bounds e Hwf G K NoEnums ty Hty Hc (fun r Hr => arrays_have_0 e r Hwf Hr)).
Qed.
Print Assumptions C61_in_bounds_partial.
(** With enums: if the arrays of the document have the one or two elements that the variants of
    the type look for. *)
Theorem C61_in_bounds_enums_partial : forall e G K a ty,
  wf_env e -> checked e -> types_ok G K a ty ->
  (forall r, from_bytes e = Ret (Ok r) -> arrays_have e r (enum_len a)) ->
  (forall fuel, de_from_bytes G fuel e ty <> UB) /\
  (forall fuel, ((K + 1) * fuel_of e <= fuel)%nat -> safe (de_from_bytes G fuel e ty)).
Proof. intros e G K a ty Hwf Hc Hty. exact (de_bytes_bounds e Hwf G K a ty Hty Hc). Qed.
Print Assumptions C61_in_bounds_enums_partial.

(** A tree: a struct with an optional number and an optional list of trees. *)
Definition tree_types (n : nat) : sty :=
  YStruct [([97;98], YOpt YF64); ([99], YOpt (YSeq (YNamed 0)))].
Definition tree_ty : sty := YTuple [YInt U8; YStr; YNamed 0].
Definition unit_enum : sty := YSeq (YEnum [([65], VUnit); ([66], VUnit)]).
Definition enum_bytes : list Z := [0x60;1; 0x41;65; 0x60;1; 0x80;3; 0x80;2].
Example C61_example :
  checked (ex_env false) /\ types_ok tree_types 4 NoEnums tree_ty /\
  de_from_bytes tree_types 20 (ex_env false) tree_ty =
    Ret (Ok (STuple [SInt U8 7; SStr [120;121;122]; SStruct [([97;98], SSome (SF64 4611686018427387904)); ([99], SNone)]])) /\
  types_ok tree_types 4 UnitVariants unit_enum /\
  checked (at4g true enum_bytes) /\
  (forall r, from_bytes (at4g true enum_bytes) = Ret (Ok r) -> arrays_have (at4g true enum_bytes) r (enum_len UnitVariants)) /\
  de_from_bytes tree_types 20 (at4g true enum_bytes) unit_enum = Ret (Ok (SSeq [SUnitVariant [65]])).
Proof.
  assert (Ht : forall a, ty_ok tree_types 4 a (tree_types 0)).
  { intros a. constructor. repeat (constructor; [cbn [snd]; repeat constructor|]). constructor. }
  split; [right; left; apply modestb_ok; vm_compute; reflexivity|].
  split; [split; [lia|]; split; [|intros n; apply (Ht NoEnums)]; constructor; repeat (constructor; [constructor; exact I|]); constructor|].
  split; [vm_compute; reflexivity|].
  split; [split; [lia|]; split; [|intros n; apply (Ht UnitVariants)]; constructor; constructor; [cbn; lia|]; repeat (constructor; [constructor|]); constructor|].
  split; [left; reflexivity|]. split; [|vm_compute; reflexivity].
  intros r Hr. assert (H : from_bytes (at4g true enum_bytes) = Ret (Ok (V 4 4))) by (vm_compute; reflexivity).
  rewrite H in Hr. injection Hr as <-. apply arrays_haveb. vm_compute. reflexivity.
Qed.

(** Without that: the document [[]] is read past its end as an enum; and an array of one element
    as an enum with a value, when the array is the last thing in the buffer that can hold it. *)
Theorem C61_refuted : forall dbg,
  let e := at4g dbg [0x60; 0x00] in
  wf_env e /\ checked e /\ from_bytes e = Ret (Ok (V 0 2)) /\
  types_ok tree_types 4 UnitVariants (YEnum [([65], VUnit)]) /\
  forall G fuel, de_from_bytes G (S fuel) e (YEnum [([65], VUnit)]) = UB.
Proof.
  intros dbg. cbv zeta. split; [apply at4g_wf; vm_compute; reflexivity|].
  split; [right; left; apply modestb_ok; destruct dbg; vm_compute; reflexivity|].
  split; [destruct dbg; vm_compute; reflexivity|].
  split; [split; [lia|]; split; [constructor; [cbn; lia|]; repeat constructor|]; intros n; constructor; repeat (constructor; [cbn [snd]; repeat constructor|]); constructor|].
  intros G fuel. destruct dbg; vm_compute; reflexivity.
Qed.
Print Assumptions C61_refuted.
Definition short_wide : list Z := [0x68;1; 0x41;65;0;0; 0x80;3].
Theorem C61_refuted_one_element : forall dbg,
  let e := at4g dbg short_wide in
  wf_env e /\ checked e /\ (exists r, from_bytes e = Ret (Ok r)) /\
  forall G fuel t, de_from_bytes G (S fuel) e (YEnum [([65], VNewtype t)]) = UB.
Proof.
  intros dbg. cbv zeta. split; [apply at4g_wf; vm_compute; reflexivity|].
  split; [right; left; apply modestb_ok; destruct dbg; vm_compute; reflexivity|].
  split; [eexists; destruct dbg; vm_compute; reflexivity|].
  intros G fuel t. destruct dbg; vm_compute; reflexivity.
Qed.
Print Assumptions C61_refuted_one_element.

(* ---------- C62 ---------- *)

(** Deserializing accepted bytes gives a value or an error, without a panic - when no float was
    cut short (C21) and there is no enum with named fields, whose check looks keys up with
    [contains_key]. *)
Theorem C62_no_panic_partial : forall e r G K a ty fuel,
  wf_env e -> from_bytes e = Ret (Ok r) -> types_ok G K a ty -> level a <= 2 ->
  arrays_have e r (enum_len a) -> whole_floats e r -> ((K + 1) * fuel_of e <= fuel)%nat ->
  exists x, de_from_bytes G fuel e ty = Ret x.
Proof. intros e r G K a ty fuel Hwf Hr Hty Hl Har Hw Hf. exact (de_bytes_returns e Hwf G K a ty Hty r fuel Hr Har Hw Hl Hf). Qed.
Print Assumptions C62_no_panic_partial.
Example C62_example : from_bytes (ex_env true) = Ret (Ok (V 24 8)) /\ arrays_have (ex_env true) (V 24 8) 2 /\ whole_floats (ex_env true) (V 24 8).
Proof.
  split; [vm_compute; reflexivity|]. split; [apply arrays_haveb; vm_compute; reflexivity|apply whole_floatsb; vm_compute; reflexivity].
Qed.
(** The other cases panic: a float behind two pointers, and a variant with named fields whose
    dict has a key that is no string (debug build). *)
Theorem C62_refuted_float : forall dbg, exists e r,
  e_dbg e = dbg /\ wf_env e /\ from_bytes e = Ret (Ok r) /\ forall G fuel, de_from_bytes G (S fuel) e YF64 = Panic.
Proof.
  intros dbg. exists (at4g dbg [0x20; 0; 1; 2; 0x80; 0; 0; 2; 0x80; 2]), (V 0 4). split; [reflexivity|].
  split; [apply at4g_wf; vm_compute; reflexivity|]. split; [destruct dbg; vm_compute; reflexivity|].
  intros G fuel. destruct dbg; vm_compute; reflexivity.
Qed.
Print Assumptions C62_refuted_float.
Definition odd_key : list Z := [0x70;1; 0x30;0; 0;1; 0x60;2; 0x41;65; 0x80;5; 0x80;3].
Theorem C62_refuted_key : exists r,
  let e := at4g true odd_key in
  wf_env e /\ from_bytes e = Ret (Ok r) /\ arrays_have e r 2 /\ whole_floats e r /\
  forall G fuel t, de_from_bytes G (S fuel) e (YEnum [([65], VStruct [([66], t)])]) = Panic.
Proof.
  exists (V 6 6). cbv zeta. split; [apply at4g_wf; vm_compute; reflexivity|]. split; [vm_compute; reflexivity|].
  split; [apply arrays_haveb; vm_compute; reflexivity|]. split; [apply whole_floatsb; vm_compute; reflexivity|].
  intros G fuel t. vm_compute; reflexivity.
Qed.
Print Assumptions C62_refuted_key.

(* ---------- C63 ---------- *)

(** Formatting any value of an accepted document with [{:?}] ends and stays inside the buffer; it
    does not panic when no float was cut short. *)
Theorem C63_debug_partial : forall e r v,
  wf_env e -> from_bytes e = Ret (Ok r) -> within e r v ->
  safe (debug_fmt e v) /\ (whole_floats e r -> debug_fmt e v = Ret tt).
Proof.
  intros e r v Hwf Hr Hv. exact (conj (debug_safe e r Hwf Hr v Hv) (fun H => debug_returns e r Hwf Hr H v Hv)).
Qed.
Print Assumptions C63_debug_partial.
Example C63_example : within (ex_env true) (V 24 8) (V 18 12) /\ debug_fmt (ex_env true) (V 18 12) = Ret tt.
Proof.
  split; [|vm_compute; reflexivity]. apply within_member with (V 24 8); [constructor|].
  apply member_slot with TyArray (mk_aiter (Some (V 26 2)) 2 0 3) 3%nat [V 26 2; V 0 28; V 18 12] (mk_aiter None 2 3 3);
    try (vm_compute; reflexivity); [left; reflexivity|right; right; left; reflexivity].
Qed.
Theorem C63_refuted : forall dbg, exists e r,
  e_dbg e = dbg /\ wf_env e /\ from_bytes e = Ret (Ok r) /\ debug_fmt e r = Panic.
Proof.
  intros dbg. exists (at4g dbg [0x20; 0; 1; 2; 0x80; 0; 0; 2; 0x80; 2]), (V 0 4). split; [reflexivity|].
  split; [apply at4g_wf; vm_compute; reflexivity|]. split; destruct dbg; vm_compute; reflexivity.
Qed.
Print Assumptions C63_refuted.

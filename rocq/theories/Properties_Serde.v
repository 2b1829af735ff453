(** C43-C46: serializing and deserializing through serde (src/ser.rs, src/de.rs). *)
From Verif Require Import Prelude Utf8 Float SharedKeys Decode Read Encodable Encoder BuilderSpec LayoutSpec
  EncoderInv EncoderClean EncoderProtocol Isort Scopes ScopeSpec PathSpec Ser De SerdeSpec SerProofs DeProofs SerdeProofs SerdeShared
  Properties_Encoder.
From Coq Require Import Permutation.

(** For the examples: a struct with a map, a tuple, options, text, bytes, numbers and variants of
    each shape.
<<
    enum Kind { Plain, Held(Vec<Kind>), Pair(u8, bool), Named { first: u8, second: Option<u8> } }
    struct Doc { kinds: Vec<Kind>, table: BTreeMap<String, (i8, f64)>, maybe: Option<String>, raw: bytes }
>> *)
Definition n_plain := [80; 108; 97; 105; 110].
Definition n_held := [72; 101; 108; 100].
Definition n_pair := [80; 97; 105; 114].
Definition n_named := [78; 97; 109; 101; 100].
Definition n_first := [102; 105; 114; 115; 116].
Definition n_second := [115; 101; 99; 111; 110; 100].
Definition n_kinds := [107; 105; 110; 100; 115].
Definition n_table := [116; 97; 98; 108; 101].
Definition n_maybe := [109; 97; 121; 98; 101].
Definition n_raw := [114; 97; 119].
Definition ex_variants : list (list Z * vty) :=
  [(n_plain, VUnit); (n_held, VNewtype (YSeq (YNamed 0))); (n_pair, VTuple [YInt U8; YBool]);
   (n_named, VStruct [(n_first, YInt U8); (n_second, YOpt (YInt U8))])].
Definition ex_types : nat -> sty := fun _ => YEnum ex_variants.
Definition ex_fields : list (list Z * sty) :=
  [(n_kinds, YSeq (YNamed 0)); (n_table, YMap YStr (YTuple [YInt I8; YF64])); (n_maybe, YOpt YStr); (n_raw, YBytes)].
Definition ex_kind : sval :=
  SNewtypeVariant n_held
    (SSeq [SUnitVariant n_plain; STupleVariant n_pair [SInt U8 7; SBool true];
           SStructVariant n_named [(n_first, SInt U8 9); (n_second, SNone)]]).
Definition ex_value : sval :=
  SStruct
    [(n_kinds, SSeq [ex_kind; SStructVariant n_named [(n_first, SInt U8 1); (n_second, SSome (SInt U8 200))]]);
     (n_table, SMap [(SStr n_second, STuple [SInt I8 (-5); SF64 0x3ff8000000000000]);
                     (SStr n_first, STuple [SInt I8 100; SF64 0])]);
     (n_maybe, SSome (SStr n_pair)); (n_raw, SBytes [1; 2; 3])].

Ltac distinct_names := repeat (constructor; [cbn; intros Hx; repeat destruct Hx as [Hx|Hx]; try discriminate; try contradiction|]); constructor.
Ltac a_text := split; [apply all_bytesb; reflexivity|split; vm_compute; reflexivity].
Lemma typed_S G n ty v : typed G (S n) ty v = typed_step G (typed G n) ty v.
Proof. reflexivity. Qed.
Ltac has_type :=
  repeat match goal with
  | |- True => exact I
  | |- text _ => a_text
  | |- all_bytes _ => apply all_bytesb; reflexivity
  | |- typed _ _ ?ty _ => let ty' := eval hnf in ty in change ty with ty'; cbn [fst snd]; rewrite typed_S; unfold typed_step; cbv beta iota zeta
  | |- NoDup _ => distinct_names
  | |- Forall _ _ => constructor
  | |- Forall2 _ _ _ => constructor
  | |- In _ _ => solve [cbn; auto 6]
  | |- exists _, _ => eexists
  | |- _ /\ _ => split
  | |- fst _ = fst _ => reflexivity
  | |- _ = _ => reflexivity
  | |- _ <= _ => vm_compute; discriminate
  | |- _ < _ => vm_compute; reflexivity
  end.
Lemma ex_typed : typed ex_types 12 (YStruct ex_fields) ex_value.
Proof. unfold ex_value, ex_kind. has_type. Qed.
Lemma ex_kind_typed : typed ex_types 12 (YEnum ex_variants) ex_kind.
Proof. unfold ex_kind. has_type. Qed.

(* ---------- C43 ---------- *)

(** Whenever [to_bytes] returns, it returns what the property asks for, for every value: a value
    that is not a collection is refused, the first map key that is not a text is reported, and
    everything else is a document (unless it is too large). *)
Theorem C43_answer : forall c v r, to_bytes c v = Ret r ->
  if collection v then
    r = Err (SeEncode PointerTooLarge) \/
    match bad_key v with Some k => r = Err (SeKeyNotString k) | None => exists bs, r = Ok bs end
  else r = Err SeValueNotCollection.
Proof. exact to_bytes_answer. Qed.
Print Assumptions C43_answer.
Theorem C43_scalar_refused : forall c v, collection v = false -> to_bytes c v = Ret (Err SeValueNotCollection).
Proof. exact scalar_returns. Qed.
Print Assumptions C43_scalar_refused.
(** It returns, and the document holds the value, for documents whose integers are not those the
    encoder gets wrong ([good_op]) and whose layout works out (see C07). *)
Theorem C43_serialize_partial : forall c v,
  sort_ok (c_sort c) -> Forall good_op (ser_ops v) -> layout_ok (c_ua c) 0 (ser_ops v) -> ops_size (ser_ops v) <= MAX_WIDE -> collection v = true ->
  match bad_key v with
  | Some k => to_bytes c v = Ret (Err (SeKeyNotString k))
  | None => exists bs, to_bytes c v = Ret (Ok bs) /\ serialized v bs
  end.
Proof. exact to_bytes_small. Qed.
Print Assumptions C43_serialize_partial.
Example C43_case :
  collection ex_value = true /\ bad_key ex_value = None /\
  (exists bs, to_bytes (ex_cfg true) ex_value = Ret (Ok bs) /\ lenZ bs = 234) /\
  sort_ok (c_sort (ex_cfg true)) /\ Forall good_op (ser_ops ex_value) /\ layout_ok (fun _ => false) 0 (ser_ops ex_value) /\ ops_size (ser_ops ex_value) <= MAX_WIDE /\
  (let v := SSeq [ex_value; SMap [(SStr n_first, SUnit); (SInt U8 1, SUnit)]] in
   bad_key v = Some KInt /\ to_bytes (ex_cfg true) v = Ret (Err (SeKeyNotString KInt))) /\
  to_bytes (ex_cfg true) (SSome (SNewtype (SStr n_first))) = Ret (Err SeValueNotCollection).
Proof.
  split; [reflexivity|]. split; [reflexivity|]. split; [eexists; split; vm_compute; reflexivity|]. split; [exact isort_ok|].
  split; [apply good_opsb; vm_compute; reflexivity|]. split; [right; vm_compute; reflexivity|]. split; [vm_compute; discriminate|].
  split; [split; vm_compute; reflexivity|vm_compute; reflexivity].
Qed.
(** Without those restrictions it is not so: [vec![3000u16]] panics, [vec![40000i64]] never
    returns. *)
Theorem C43_refuted :
  (exists v, collection v = true /\ bad_key v = None /\ typed ex_types 2 (YSeq (YInt U16)) v /\
     to_bytes (ex_cfg true) v = Panic /\ to_bytes (ex_cfg false) v = Panic) /\
  (exists v, collection v = true /\ bad_key v = None /\ typed ex_types 2 (YSeq (YInt I64)) v /\
     to_bytes (ex_cfg true) v = Diverge /\ to_bytes (ex_cfg false) v = Diverge).
Proof.
  split; [exists (SSeq [SInt U16 3000])|exists (SSeq [SInt I64 40000])]; (split; [reflexivity|]); (split; [reflexivity|]);
    (split; [has_type|]); split; vm_compute; reflexivity.
Qed.
Print Assumptions C43_refuted.

(* ---------- C44 ---------- *)

(** Serializing and deserializing at the same type gives the value back (maps up to the order of
    their entries), for the shapes that can be read back ([restorable]: C46 and below are about
    the others) and documents as in C43.  [n] bounds the nesting of the value. *)
Theorem C44_round_trip_partial : forall c G n ty v,
  sort_ok (c_sort c) -> typed G n ty v -> restorable v = true ->
  collection v = true -> bad_key v = None -> Forall good_op (ser_ops v) -> layout_ok (c_ua c) 0 (ser_ops v) -> ops_size (ser_ops v) <= MAX_WIDE ->
  exists bs, to_bytes c v = Ret (Ok bs) /\
    forall dbg base, addressable base bs ->
    exists w, de_from_bytes G n (mk_env dbg base bs None) ty = Ret (Ok w) /\ same v w.
Proof. exact small_round. Qed.
Print Assumptions C44_round_trip_partial.
(** The same with shared keys: the keys are found through the scope that [to_bytes_with_shared_keys]
    made. *)
Theorem C44_shared_keys_partial : forall c G n ty v w reg start,
  sort_ok (c_sort c) -> typed G n ty v -> restorable v = true -> collection v = true -> bad_key v = None ->
  Forall good_op (ser_ops v) -> layout_ok (c_ua c) 0 (OpSetSharedKeys [] :: ser_ops v) -> ops_size (ser_ops v) <= MAX_WIDE -> shareable (keys_written v) ->
  reach (c_dbg c) fresh w reg -> w_poisoned w = false ->
  exists bs, addressable start bs -> fresh w start bs ->
  exists id w', to_bytes_with_shared_keys c w start v = (Ret (Ok id), w') /\
    reach (c_dbg c) fresh w' (id :: reg) /\ w_poisoned w' = false /\
    (exists s, alive w' id s /\ scope_data s = Some bs) /\
    exists r, from_bytes_in G n w' (c_dbg c) start bs ty = Ret (Ok r) /\ same v r.
Proof. exact shared_round. Qed.
Print Assumptions C44_shared_keys_partial.
Definition ex_result : sval :=
  SStruct
    [(n_kinds, SSeq [ex_kind; SStructVariant n_named [(n_first, SInt U8 1); (n_second, SSome (SInt U8 200))]]);
     (n_table, SMap [(SStr n_first, STuple [SInt I8 100; SF64 0]);
                     (SStr n_second, STuple [SInt I8 (-5); SF64 0x3ff8000000000000])]);
     (n_maybe, SSome (SStr n_pair)); (n_raw, SBytes [1; 2; 3])].
Definition ser_de (dbg : bool) (G : nat -> sty) (ty : sty) (v : sval) : dser sval :=
  r <- to_bytes (ex_cfg dbg) v ;;
  match r with Ok bs => de_from_bytes G 12 (mk_env dbg 4096 bs None) ty | Err _ => Panic end.
Example C44_case :
  typed ex_types 12 (YStruct ex_fields) ex_value /\ restorable ex_value = true /\
  ser_de true ex_types (YStruct ex_fields) ex_value = Ret (Ok ex_result) /\
  ser_de false ex_types (YStruct ex_fields) ex_value = Ret (Ok ex_result) /\
  shareable (keys_written ex_value) /\
  exists bs w', to_bytes_with_shared_keys (ex_cfg true) world_new 4096 ex_value = (Ret (Ok 0%nat), w') /\
    fresh world_new 4096 bs /\ lenZ bs = 170 /\
    from_bytes_in ex_types 12 w' true 4096 bs (YStruct ex_fields) = Ret (Ok ex_result) /\
    from_bytes_in ex_types 12 world_new true 4096 bs (YStruct ex_fields) = Ret (Err DeCannotDecodeSharedKeys).
Proof.
  split; [exact ex_typed|]. split; [reflexivity|]. split; [vm_compute; reflexivity|]. split; [vm_compute; reflexivity|].
  split.
  { split; [vm_compute; reflexivity|]. split.
    - intros k Hk. repeat (destruct Hk as [<-|Hk]; [vm_compute; discriminate|]). destruct Hk.
    - intros k k' Hk _ Hl. exfalso. repeat (destruct Hk as [<-|Hk]; [vm_compute in Hl; discriminate|]). destruct Hk. }
  eexists (match fst (to_bytes_with_shared_keys (ex_cfg true) world_new 4096 ex_value) with
           | Ret (Ok i) => match nth_error (w_scopes (snd (to_bytes_with_shared_keys (ex_cfg true) world_new 4096 ex_value))) i with
                           | Some s => sc_data s | None => [] end
           | _ => [] end), (snd (to_bytes_with_shared_keys (ex_cfg true) world_new 4096 ex_value)).
  split; [vm_compute; reflexivity|]. split; [intros id s [H _]; destruct id; discriminate|].
  split; [vm_compute; reflexivity|]. split; vm_compute; reflexivity.
Qed.
(** The other shapes.  One-letter field names and one-letter texts are not read back; [Some(None)]
    reads back as [None]; an f32 that is a signalling NaN comes back quiet. *)
Theorem C44_refuted : forall dbg,
  (exists ty v, typed ex_types 12 ty v /\ restorable v = true /\
     ser_de dbg ex_types ty v = Ret (Err DeCannotDecodeSharedKeys)) /\
  (exists v, typed ex_types 12 (YSeq YChar) v /\ restorable v = true /\
     ser_de dbg ex_types (YSeq YChar) v = Ret (Err DeInvalidType)) /\
  (exists v w, let ty := YSeq (YOpt (YOpt YBool)) in
     typed ex_types 12 ty v /\ typed ex_types 12 ty w /\ v <> w /\ ser_de dbg ex_types ty v = Ret (Ok w)) /\
  (exists v w, typed ex_types 12 (YSeq YF32) v /\ typed ex_types 12 (YSeq YF32) w /\ v <> w /\
     ser_de dbg ex_types (YSeq YF32) v = Ret (Ok w)).
Proof.
  intros dbg. split.
  { exists (YStruct [([120], YInt U8); ([121], YInt U8)]), (SStruct [([120], SInt U8 1); ([121], SInt U8 2)]).
    split; [has_type|]. split; [reflexivity|]. destruct dbg; vm_compute; reflexivity. }
  split.
  { exists (SSeq [SChar [97]]). split; [has_type|]. split; [reflexivity|]. destruct dbg; vm_compute; reflexivity. }
  split.
  { exists (SSeq [SSome SNone]), (SSeq [SNone]). split; [has_type|]. split; [has_type|]. split; [discriminate|]. destruct dbg; vm_compute; reflexivity. }
  exists (SSeq [SF32 0x7f800001]), (SSeq [SF32 0x7fc00001]). split; [has_type|]. split; [has_type|]. split; [discriminate|]. destruct dbg; vm_compute; reflexivity.
Qed.
Print Assumptions C44_refuted.

(* ---------- C45 ---------- *)

(** Unit, newtype, tuple and struct variants come back with their name and content. *)
Theorem C45_variants_partial : forall c G n vs v,
  sort_ok (c_sort c) -> typed G n (YEnum vs) v -> restorable v = true -> bad_key v = None ->
  Forall good_op (ser_ops v) -> layout_ok (c_ua c) 0 (ser_ops v) -> ops_size (ser_ops v) <= MAX_WIDE ->
  exists bs, to_bytes c v = Ret (Ok bs) /\
    forall dbg base, addressable base bs ->
    exists w, de_from_bytes G n (mk_env dbg base bs None) (YEnum vs) = Ret (Ok w) /\
      variant_of w = variant_of v /\ same v w.
Proof. exact variant_round. Qed.
Print Assumptions C45_variants_partial.
Example C45_case :
  typed ex_types 12 (YEnum ex_variants) ex_kind /\ restorable ex_kind = true /\ bad_key ex_kind = None /\
  Forall good_op (ser_ops ex_kind) /\ layout_ok (fun _ => false) 0 (ser_ops ex_kind) /\ ops_size (ser_ops ex_kind) <= MAX_WIDE /\
  ser_de true ex_types (YEnum ex_variants) ex_kind = Ret (Ok ex_kind).
Proof.
  split; [exact ex_kind_typed|]. split; [reflexivity|]. split; [reflexivity|].
  split; [apply good_opsb; vm_compute; reflexivity|]. split; [right; vm_compute; reflexivity|]. split; [vm_compute; discriminate|vm_compute; reflexivity].
Qed.
(** A variant with a name of one letter ([enum E { A, B }]) does not come back. *)
Theorem C45_refuted_name : exists vs v, typed ex_types 12 (YEnum vs) v /\ restorable v = true /\ bad_key v = None /\
  forall dbg, ser_de dbg ex_types (YEnum vs) v = Ret (Err DeInvalidType).
Proof.
  exists [([65], VUnit); ([66], VUnit)], (SUnitVariant [65]). split; [has_type|]. split; [reflexivity|]. split; [reflexivity|].
  intros dbg. destruct dbg; vm_compute; reflexivity.
Qed.
Print Assumptions C45_refuted_name.
(** A variant that needs content is not refused when there is none: the bytes behind the array are
    taken, here the pointer to the array itself.  [vec!["ab"]] reads as [Ab(vec!["ab"])]. *)
Theorem C45_refuted_content : forall dbg,
  ser_de dbg ex_types (YEnum [([97; 98], VNewtype (YSeq YStr))]) (SSeq [SStr [97; 98]]) =
  Ret (Ok (SNewtypeVariant [97; 98] (SSeq [SStr [97; 98]]))).
Proof. intros dbg. destruct dbg; vm_compute; reflexivity. Qed.
Print Assumptions C45_refuted_content.
(** With a recursive type ([enum E { Ab(Box<E>) }]) this never ends, however deep the recursion. *)
Theorem C45_refuted_endless : forall dbg,
  to_bytes (ex_cfg dbg) (SSeq [SStr [97; 98]]) = Ret (Ok loop_doc) /\
  forall n, de_from_bytes loop_types n (mk_env dbg 4096 loop_doc None) (YNamed 0) = Diverge.
Proof. intros dbg. split; [destruct dbg; vm_compute; reflexivity|exact (loop_from_bytes dbg)]. Qed.
Print Assumptions C45_refuted_endless.

(* ---------- C46 ---------- *)

(** Newtype structs of anything that is not stored as an array, and unit structs, never come back. *)
Theorem C46_newtype_refuted : forall c G n ty v l, sort_ok (c_sort c) ->
  bad_key (SSeq (SNewtype v :: l)) = None ->
  Forall good_op (ser_ops (SSeq (SNewtype v :: l))) -> layout_ok (c_ua c) 0 (ser_ops (SSeq (SNewtype v :: l))) -> ops_size (ser_ops (SSeq (SNewtype v :: l))) <= MAX_WIDE ->
  is_seq (stree v) = false ->
  exists bs, to_bytes c (SSeq (SNewtype v :: l)) = Ret (Ok bs) /\
    forall dbg base, addressable base bs ->
    de_from_bytes G (S (S n)) (mk_env dbg base bs None) (YSeq (YNewtype ty)) = Ret (Err DeInvalidType).
Proof. exact newtype_fails. Qed.
Print Assumptions C46_newtype_refuted.
Theorem C46_unit_struct_refuted : forall c G n l, sort_ok (c_sort c) ->
  bad_key (SSeq (SUnitStruct :: l)) = None ->
  Forall good_op (ser_ops (SSeq (SUnitStruct :: l))) -> layout_ok (c_ua c) 0 (ser_ops (SSeq (SUnitStruct :: l))) -> ops_size (ser_ops (SSeq (SUnitStruct :: l))) <= MAX_WIDE ->
  exists bs, to_bytes c (SSeq (SUnitStruct :: l)) = Ret (Ok bs) /\
    forall dbg base, addressable base bs ->
    de_from_bytes G (S (S n)) (mk_env dbg base bs None) (YSeq YUnitStruct) = Ret (Err DeInvalidType).
Proof. exact unit_struct_fails. Qed.
Print Assumptions C46_unit_struct_refuted.
Example C46_case :
  let v := SSeq [SNewtype (SStruct [(n_first, SInt U8 1)]); SNewtype (SStruct [(n_first, SInt U8 2)])] in
  typed ex_types 12 (YSeq (YNewtype (YStruct [(n_first, YInt U8)]))) v /\
  Forall good_op (ser_ops v) /\ layout_ok (fun _ => false) 0 (ser_ops v) /\ ops_size (ser_ops v) <= MAX_WIDE /\
  ser_de true ex_types (YSeq (YNewtype (YStruct [(n_first, YInt U8)]))) v = Ret (Err DeInvalidType) /\
  ser_de true ex_types (YSeq YUnitStruct) (SSeq [SUnitStruct]) = Ret (Err DeInvalidType).
Proof.
  cbv zeta. split; [has_type|]. split; [apply good_opsb; vm_compute; reflexivity|]. split; [right; vm_compute; reflexivity|]. split; [vm_compute; discriminate|]. split; vm_compute; reflexivity.
Qed.
(** One that is stored as an array may come back as something else: for
    [struct W(Vec<W>)], [W([W([])])] comes back as [W([])]. *)
Theorem C46_refuted_misread : exists G v w, forall dbg,
  typed G 12 (YNamed 0) v /\ typed G 12 (YNamed 0) w /\ v <> w /\ ser_de dbg G (YNamed 0) v = Ret (Ok w).
Proof.
  exists (fun _ => YNewtype (YSeq (YNamed 0))), (SNewtype (SSeq [SNewtype (SSeq [])])), (SNewtype (SSeq [])).
  intros dbg. split; [has_type|]. split; [has_type|]. split; [discriminate|]. destruct dbg; vm_compute; reflexivity.
Qed.
Print Assumptions C46_refuted_misread.

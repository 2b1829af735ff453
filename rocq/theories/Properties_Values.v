(** C02-C06, C26-C28, C47-C49: values written into arrays and read back, and the accessors. *)
From Verif Require Import Prelude Utf8 Float SharedKeys Decode Read Encodable Encoder BuilderSpec
  ValueSpec Constants Holds SlotProofs Isort Flat Values Properties_Encoder.
From Coq Require Import Lia.

Ltac show_writable := apply writableb_ok; vm_compute; reflexivity.

(* ---------- C07, flat arrays of any size ---------- *)

(** Every writable array, however large, reads back as its stored values, in order. *)
Theorem C07_flat_partial : forall c vs ts,
  sort_ok (c_sort c) -> writable vs -> Forall2 (fun v t => stored_value v = Some t) vs ts ->
  exists e' bs, enc_run c enc_new (arr_ops vs) = Ret (e', repeat (Ok tt) (S (S (length vs)))) /\ finish c e' = Ret bs /\
    forall dbg base, addressable base bs ->
    exists r, from_bytes (mk_env dbg base bs None) = Ret (Ok r) /\ read_doc (mk_env dbg base bs None) r = Ret (TArr ts).
Proof. exact flat_tree. Qed.
Print Assumptions C07_flat_partial.
(** For example 900 strings of 15 bytes and as many numbers. *)
Example C07_flat_example : writable (concat (repeat [EStr (repeat 97 15); EInt U32 70000] (Z.to_nat 900))).
Proof.
  split; [|split]; [apply Forall_forall; intros v Hv; apply in_concat in Hv as (l & Hl & Hv); apply repeat_spec in Hl; subst l; apply wf_encb_ok;
    destruct Hv as [<-|[<-|[]]]; reflexivity| |split; [vm_compute; discriminate|left; vm_compute; reflexivity]].
  apply Forall_forall; intros v Hv; apply in_concat in Hv as (l & Hl & Hv); apply repeat_spec in Hl; subst l.
  destruct Hv as [<-|[<-|[]]]; discriminate.
Qed.

(* ---------- C02 ---------- *)

(** Every [u32] in every writable array reads back as itself. *)
Theorem C02_u32 : forall c vs i z,
  sort_ok (c_sort c) -> writable vs -> nthZ vs i = Some (EInt U32 z) -> 0 <= z < two32 ->
  reads_element c vs i (fun m x => to_unsigned_int m x = Ret z /\ to_int m x = Ret z).
Proof. exact u32_elem. Qed.
Print Assumptions C02_u32.
Example C02_u32_example : writable [EInt U32 4294967295; EStr [120;121;122]; EInt U32 7; EInt U32 65536].
Proof. show_writable. Qed.

(** [u64]/[usize]: those up to 2047, and those smaller than 256^k, where k is 8 less an eighth
    (rounded up) of the number of trailing zero bits; in particular every odd number. *)
Theorem C02_u64_partial : forall c vs i t z,
  sort_ok (c_sort c) -> writable vs -> nthZ vs i = Some (EInt t z) -> t = U64 \/ t = Usize -> 0 <= z < two64 ->
  z <= 2047 \/ z < 256 ^ (8 - (ctz64 z + 7) / 8) ->
  reads_element c vs i (fun m x => to_unsigned_int m x = Ret z).
Proof. exact u64_elem. Qed.
Print Assumptions C02_u64_partial.
Theorem C02_odd : forall c vs i t z,
  sort_ok (c_sort c) -> writable vs -> nthZ vs i = Some (EInt t z) -> t = U64 \/ t = Usize -> 0 <= z < two64 ->
  Z.odd z = true -> reads_element c vs i (fun m x => to_unsigned_int m x = Ret z).
Proof. exact odd_elem. Qed.
Print Assumptions C02_odd.
Example C02_u64_example : writable [EInt U64 18446744073709551615; EInt Usize 1099511627775; EInt U64 4294967296].
Proof. show_writable. Qed.

(** What any other [u64] reads back as: its high bytes are dropped. *)
Theorem C02_what_is_read : forall c vs i t z,
  sort_ok (c_sort c) -> writable vs -> nthZ vs i = Some (EInt t z) -> t = U32 \/ t = U64 \/ t = Usize ->
  2047 < z ->
  reads_element c vs i (fun m x => to_unsigned_int m x = Ret (z mod 256 ^ (8 - (ctz64 z + 7) / 8))).
Proof. exact unsigned_elem. Qed.
Print Assumptions C02_what_is_read.

(** The number 2^40 is accepted and reads back as 0. *)
Theorem C02_refuted : forall c, sort_ok (c_sort c) ->
  reads_element c [EInt U64 (2 ^ 40)] 0 (fun m x => to_unsigned_int m x = Ret 0).
Proof. exact u64_lost. Qed.
Print Assumptions C02_refuted.
(** 2^57 and the other multiples of 2^57 panic in debug builds. *)
Theorem C02_refuted_panic : forall c e t z, c_dbg c = true -> en_stack e <> [] -> t = U64 \/ t = Usize ->
  2047 < z < two64 -> 57 <= ctz64 z -> write_value c e (EInt t z) = Panic.
Proof. exact u64_panics. Qed.
Print Assumptions C02_refuted_panic.
Example C02_panic_example : exists r, begin_array enc_new 0 = Ret r /\ en_stack (fst r) <> [] /\
  57 <= ctz64 (2 ^ 57) /\ write_value (ex_cfg true) (fst r) (EInt U64 (2 ^ 57)) = Panic.
Proof. eexists. split; [vm_compute; reflexivity|]. split; [discriminate|]. split; [vm_compute; discriminate|]. vm_compute. reflexivity. Qed.

(* ---------- C03 ---------- *)

(** Signed integers from -2048 to 2047 read back as themselves. *)
Theorem C03_partial : forall c vs i t z,
  sort_ok (c_sort c) -> writable vs -> nthZ vs i = Some (EInt t z) -> t = I64 \/ t = I32 \/ t = Isize ->
  -2048 <= z <= 2047 -> reads_element c vs i (fun m x => to_int m x = Ret z).
Proof. exact signed_small. Qed.
Print Assumptions C03_partial.
Example C03_example : writable [EInt I64 (-2048); EInt I32 2047; EInt Isize 0].
Proof. show_writable. Qed.
(** What any signed integer reads back as when the call returns: its low 16 bits. *)
Theorem C03_what_is_read : forall c vs i t z,
  sort_ok (c_sort c) -> writable vs -> nthZ vs i = Some (EInt t z) -> t = I64 \/ t = I32 \/ t = Isize ->
  reads_element c vs i (fun m x => to_int m x = Ret ((z + 32768) mod 65536 - 32768)).
Proof. exact signed_read. Qed.
Print Assumptions C03_what_is_read.
Theorem C03_refuted_truncated : forall c, sort_ok (c_sort c) ->
  reads_element c [EInt I64 65536] 0 (fun m x => to_int m x = Ret 0).
Proof. exact i64_lost. Qed.
Print Assumptions C03_refuted_truncated.
(** All others never return (they recurse until the stack overflows). *)
Theorem C03_refuted_hangs : forall c e t z, en_stack e <> [] -> t = I64 \/ t = I32 \/ t = Isize ->
  ~ (-2048 <= (z + 32768) mod 65536 - 32768 <= 2047) -> write_value c e (EInt t z) = Diverge.
Proof. exact signed_hangs. Qed.
Print Assumptions C03_refuted_hangs.
(** The same whatever the recursion limit. *)
Theorem C03_refuted_hangs_any_depth : forall fuel z n w,
  ~ (-2048 <= (z + 32768) mod 65536 - 32768 <= 2047) -> write_i64 fuel z n w = Diverge.
Proof. exact write_i64_diverges. Qed.
Print Assumptions C03_refuted_hangs_any_depth.
Example C03_hangs_example : ~ (-2048 <= (2048 + 32768) mod 65536 - 32768 <= 2047).
Proof. vm_compute. intuition congruence. Qed.

(* ---------- C04 ---------- *)

Theorem C04_i8_u8 : forall c vs i t z,
  sort_ok (c_sort c) -> writable vs -> nthZ vs i = Some (EInt t z) -> t = I8 \/ t = U8 \/ t = I16 \/ t = U16 ->
  reads_element c vs i (fun m x => to_int m x = Ret z).
Proof. exact small_elem. Qed.
Print Assumptions C04_i8_u8.
(** Arrays of any [i8], [u8], and of [i16], [u16] within -2048..2047, meet the condition. *)
Theorem C04_always_writable : forall t z, wf_enc (EInt t z) ->
  (t = I8 \/ t = U8) \/ (t = I16 \/ t = U16) /\ -2048 <= z <= 2047 -> writable [EInt t z].
Proof. exact small_writable. Qed.
Print Assumptions C04_always_writable.
Example C04_example : writable [EInt I8 (-128); EInt U8 255; EInt I16 (-2048); EInt U16 2047].
Proof. show_writable. Qed.
Theorem C04_refuted_u16 : forall c e z, en_stack e <> [] -> 2047 < z <= 65535 -> write_value c e (EInt U16 z) = Panic.
Proof. exact u16_panics. Qed.
Print Assumptions C04_refuted_u16.
Theorem C04_refuted_i16 : forall c e z, en_stack e <> [] -> -32768 <= z < 32768 ->
  ~ (-2048 <= z <= 2047) -> write_value c e (EInt I16 z) = Diverge.
Proof. exact i16_hangs. Qed.
Print Assumptions C04_refuted_i16.

(* ---------- C05 ---------- *)

Theorem C05_f64 : forall c vs i b, sort_ok (c_sort c) -> writable vs -> nthZ vs i = Some (EF64 b) ->
  reads_element c vs i (fun m x => to_double m x = Ret b).
Proof. exact f64_elem. Qed.
Print Assumptions C05_f64.
(** [f32] is stored via a conversion to [f64], which makes a signalling NaN quiet. *)
Theorem C05_f32 : forall c vs i b, sort_ok (c_sort c) -> writable vs -> nthZ vs i = Some (EF32 b) ->
  reads_element c vs i (fun m x => to_float m x = Ret (quiet32 b)).
Proof. exact f32_elem. Qed.
Print Assumptions C05_f32.
Theorem C05_quiet32 : forall b, (is_snan32 b = false -> quiet32 b = b) /\ (is_snan32 b = true -> quiet32 b = b + 2 ^ 22).
Proof. exact quiet32_spec. Qed.
Print Assumptions C05_quiet32.
(** Every float can be written. *)
Theorem C05_always_writable : forall v, wf_enc v -> (exists b, v = EF64 b \/ v = EF32 b) -> writable [v].
Proof. exact float_writable. Qed.
Print Assumptions C05_always_writable.
Example C05_example : writable [EF64 9218868437227405313; EF32 2139095041; EF64 0; EF64 4607182418800017408].
Proof. show_writable. Qed.

(* ---------- C06 ---------- *)

Theorem C06_str_partial : forall c vs i s, sort_ok (c_sort c) -> writable vs -> nthZ vs i = Some (EStr s) ->
  reads_element c vs i (fun m x => value_type m x = Ret TyString /\ to_str m x = Ret s /\ (s <> [] -> to_data m x = Ret s)).
Proof. exact str_elem. Qed.
Print Assumptions C06_str_partial.
Theorem C06_data_partial : forall c vs i s, sort_ok (c_sort c) -> writable vs -> nthZ vs i = Some (EData s) ->
  reads_element c vs i (fun m x => value_type m x = Ret TyData /\ to_data m x = Ret s).
Proof. exact data_elem. Qed.
Print Assumptions C06_data_partial.
(** One text of any size from 2 bytes to almost 1 GiB, except 16378 and 16379 bytes. *)
Theorem C06_any_size : forall v s, v = EStr s \/ v = EData s -> wf_enc v -> 2 <= lenZ s -> lenZ s <= MAX_WIDE - 64 ->
  (lenZ s < 16378 \/ 16379 < lenZ s) -> writable [v].
Proof. exact single_text. Qed.
Print Assumptions C06_any_size.
Example C06_example : writable [EStr [104;195;169]; EData [0;255;1;2]; EInt U8 3; EStr (repeat 97 300)].
Proof. show_writable. Qed.
(** A string of one byte is read back as a number; a document with one data byte is not
    accepted. *)
Theorem C06_refuted_short_str : exists bs v,
  run_doc (ex_cfg true) [] (arr_ops [EStr [97]]) = Ret (repeat (Ok tt) 3, bs, None) /\
  from_bytes (mk_env true 2147483648 bs None) = Ret (Ok v) /\
  read_doc (mk_env true 2147483648 bs None) v = Ret (TArr [TInt 353]).
Proof. eexists _, _. split; [vm_compute; reflexivity|]. split; [vm_compute; reflexivity|]. vm_compute. reflexivity. Qed.
Print Assumptions C06_refuted_short_str.
Theorem C06_refuted_short_data : exists bs err,
  run_doc (ex_cfg true) [] (arr_ops [EData [1]]) = Ret (repeat (Ok tt) 3, bs, None) /\
  from_bytes (mk_env true 2147483648 bs None) = Ret (Err err).
Proof. eexists _, _. split; [vm_compute; reflexivity|]. vm_compute. reflexivity. Qed.
Print Assumptions C06_refuted_short_data.
(** A document with a string of 16379 bytes is not accepted by the decoder. *)
Theorem C06_refuted_16379 : exists bs err,
  run_doc (ex_cfg true) [] (arr_ops [EStr (repeat 97 (Z.to_nat 16379))]) = Ret (repeat (Ok tt) 3, bs, None) /\
  from_bytes (mk_env true 2147483648 bs None) = Ret (Err err).
Proof. eexists _, _. split; [vm_compute; reflexivity|]. vm_compute. reflexivity. Qed.
Print Assumptions C06_refuted_16379.

(* ---------- C16 ---------- *)

(** After a prefix of odd length the document cannot be read back. *)
Theorem C16_refuted_odd : exists bs err,
  run_doc (ex_cfg true) [1] (arr_ops [EStr [120;121;122]]) = Ret (repeat (Ok tt) 3, bs, None) /\
  from_bytes (mk_env true 2147483648 bs None) = Ret (Err err).
Proof. eexists _, _. split; [vm_compute; reflexivity|]. vm_compute. reflexivity. Qed.
Print Assumptions C16_refuted_odd.

(* ---------- C26 ---------- *)

Theorem C26_short_partial : forall e v n, -2048 <= n <= 2047 -> holds_short_value e v n ->
  value_type e v = Ret TyShort /\ to_short e v = Ret n /\ to_int e v = Ret n /\
  to_unsigned_int e v = Ret (n mod two64) /\ to_unsigned_short e v = Ret (n mod 4096).
Proof. exact short_reads. Qed.
Print Assumptions C26_short_partial.
Example C26_example : holds_short_value (mk_env true 4096 [15;254] None) (V 0 2) (-2).
Proof. split; vm_compute; reflexivity. Qed.
(** -1 reads as 4095, not 65535. *)
Theorem C26_refuted : exists e v, holds_short_value e v (-1) /\ to_unsigned_short e v = Ret 4095.
Proof. exists (mk_env true 4096 [15;255] None), (V 0 2). split; [split; vm_compute; reflexivity|]. vm_compute. reflexivity. Qed.
Print Assumptions C26_refuted.

(* ---------- C27 ---------- *)

(** A signed Int in [k] little-endian bytes: correct for 8 bytes and for non-negative numbers;
    a negative number in fewer bytes reads as if it were unsigned. *)
Theorem C27_int_partial : forall e v k bs, (1 <= k <= 8)%nat -> length bs = k -> all_bytes bs ->
  vbyte e v 0 = Ret (16 + (Z.of_nat k - 1)) -> raw_bytes e (v_pos v + 1) (Z.of_nat k) = Ret bs ->
  value_type e v = Ret TyInt /\ to_int e v = Ret (if (k <? 8)%nat then le_val bs else signed_le bs).
Proof. exact int_reads. Qed.
Print Assumptions C27_int_partial.
Example C27_example : vbyte (mk_env true 4096 [18;1;2;3] None) (V 0 4) 0 = Ret (16 + (3 - 1)) /\
  raw_bytes (mk_env true 4096 [18;1;2;3] None) 1 3 = Ret [1;2;3] /\ to_int (mk_env true 4096 [18;1;2;3] None) (V 0 4) = Ret 197121.
Proof. repeat split. Qed.
Theorem C27_refuted : exists e v, vbyte e v 0 = Ret 16 /\ raw_bytes e (v_pos v + 1) 1 = Ret [255] /\
  signed_le [255] = -1 /\ to_int e v = Ret 255.
Proof. exists (mk_env true 4096 [16;255] None), (V 0 2). repeat (split; [vm_compute; reflexivity|]). vm_compute. reflexivity. Qed.
Print Assumptions C27_refuted.

(* ---------- C28 ---------- *)

Theorem C28_to_bool_partial : forall e v t z,
  value_type e v = Ret t -> is_number t = true -> t <> TyUnsignedInt -> to_int e v = Ret z ->
  to_bool e v = Ret (negb (z =? 0)).
Proof. exact bool_reads. Qed.
Print Assumptions C28_to_bool_partial.
Example C28_example : let e := mk_env true 4096 [0;5] None in
  value_type e (V 0 2) = Ret TyShort /\ to_int e (V 0 2) = Ret 5 /\ to_bool e (V 0 2) = Ret true.
Proof. repeat split. Qed.
(** Accessors on a value of another type. *)
Theorem C28_defaults : forall e v t, value_type e v = Ret t ->
  (is_number t = false -> t <> TyTrue ->
     to_int e v = Ret 0 /\ to_unsigned_int e v = Ret 0 /\ to_short e v = Ret 0 /\ to_unsigned_short e v = Ret 0 /\
     to_double e v = Ret (f64_of_i64 0) /\ to_float e v = Ret 0) /\
  (t <> TyString -> to_str e v = Ret []) /\
  (t <> TyString -> t <> TyData -> to_data e v = Ret []) /\
  (is_number t = false -> t <> TyFalse -> to_bool e v = Ret true) /\
  (t = TyFalse -> to_bool e v = Ret false) /\
  (t <> TyArray -> as_array e v = Ret None) /\ (t <> TyDict -> as_dict e v = Ret None).
Proof. exact defaults. Qed.
Print Assumptions C28_defaults.
(** An unsigned Int of zero is true. *)
Theorem C28_refuted : exists e v, value_type e v = Ret TyUnsignedInt /\ to_int e v = Ret 0 /\ to_bool e v = Ret true.
Proof. exists (mk_env true 4096 [24;0] None), (V 0 2). repeat (split; [vm_compute; reflexivity|]). vm_compute. reflexivity. Qed.
Print Assumptions C28_refuted.

(* ---------- C47 ---------- *)

(** A value that is not stored inline, written when the buffer is beyond the limit (and below
    4 GiB), is reported. *)
Theorem C47_reported_partial : forall c e v t,
  wf_enc v -> stored_value v = Some t -> to_sized_value v = None -> en_stack e <> [] ->
  lenZ (en_out e) mod 2 = 0 -> MAX_WIDE < lenZ (en_out e) < two32 ->
  exists e', write_value c e v = Ret (e', Err PointerTooLarge).
Proof. exact value_too_large. Qed.
Print Assumptions C47_reported_partial.
(** A blob of 1 GiB in an array: closing the array panics. *)
Theorem C47_refuted_panic : forall c,
  enc_run c enc_new [OpBeginArray 0; OpValue (EData (zeros (2 ^ 30))); OpEndArray] = Panic.
Proof. exact oversized_panics. Qed.
Print Assumptions C47_refuted_panic.
(** After 4 GiB the offset wraps: the second value is accepted, but its slot points to the
    first one. *)
Theorem C47_refuted_wrong_pointer : forall c, exists e',
  enc_run c enc_new [OpBeginArray 0; OpValue (EData (zeros (2 ^ 32 - 6))); OpValue (EF64 0)] =
    Ret (e', [Ok tt; Ok tt; Ok tt]) /\ en_stack e' = [CArr [mkptr 0; mkptr 0]].
Proof. exact oversized_wraps. Qed.
Print Assumptions C47_refuted_wrong_pointer.
(** The hypotheses of the first theorem are met, for instance after a blob of 1 GiB. *)
Example C47_example : forall c, exists e,
  enc_run c enc_new [OpBeginArray 0; OpValue (EData (zeros (2 ^ 30)))] = Ret (e, [Ok tt; Ok tt]) /\
  en_stack e <> [] /\ lenZ (en_out e) mod 2 = 0 /\ MAX_WIDE < lenZ (en_out e) < two32.
Proof. exact oversized_reached. Qed.

(* ---------- C48 ---------- *)

Theorem C48_pointer_round_trip : forall off (wide : bool), 0 <= off <= MAX_WIDE -> off mod 2 = 0 ->
  exists p bs, new_pointer off = Some p /\ sized_type p = TyPointer /\ pointer_offset p = off /\
    write_sized p 4 wide = Ret (Some bs) /\ lenZ bs = width_of (wide || (MAX_NARROW <? off)) /\
    forall e pos len, holds (e_data e) pos bs ->
      get_offset e (V pos len) (wide || (MAX_NARROW <? off)) = Ret off.
Proof. exact pointer_round_trip. Qed.
Print Assumptions C48_pointer_round_trip.
Theorem C48_beyond_limit : forall off, MAX_WIDE < off -> new_pointer off = None.
Proof. exact pointer_too_large. Qed.
Print Assumptions C48_beyond_limit.
Example C48_example : exists p, new_pointer 12346 = Some p /\ write_sized p 4 false = Ret (Some [152; 29]) /\
  get_offset (mk_env true 4096 [152; 29] None) (V 0 2) false = Ret 12346.
Proof. eexists. split; [vm_compute; reflexivity|]. split; [vm_compute; reflexivity|]. vm_compute. reflexivity. Qed.

(* ---------- C49 ---------- *)

Theorem C49_empty_array_partial : forall dbg base, let m := fst (array_empty dbg base) in let v := snd (array_empty dbg base) in
  value_type m v = Ret TyArray /\ as_array m v = Ret (Some v) /\ arr_len m v = Ret 0 /\ arr_is_empty m v = Ret true /\
  arr_elems m v = Ret [] /\ (forall i, 0 < i -> arr_get m v i = Ret None) /\ read_doc m v = Ret (TArr []).
Proof. exact empty_array. Qed.
Print Assumptions C49_empty_array_partial.
(** [Array::empty().get(0)] reads past the end of the static. *)
Theorem C49_refuted : forall dbg base, arr_get (fst (array_empty dbg base)) (snd (array_empty dbg base)) 0 = UB.
Proof. exact empty_array_get0. Qed.
Print Assumptions C49_refuted.
Theorem C49_empty_dict : forall dbg base, let m := fst (dict_empty dbg base) in let v := snd (dict_empty dbg base) in
  value_type m v = Ret TyDict /\ as_dict m v = Ret (Some v) /\ dict_len m v = Ret 0 /\
  dict_elems m v = Ret [] /\ dict_first m v = Ret None /\
  (forall k, dict_get m v k = Ret None) /\ (forall k sk, dict_get_sk m v k sk = Ret None) /\ read_doc m v = Ret (TDict []).
Proof. exact empty_dict. Qed.
Print Assumptions C49_empty_dict.
Theorem C49_constants : forall dbg base,
  (let '(m, v) := value_null dbg base in value_type m v = Ret TyNull /\ read_doc m v = Ret TNull) /\
  (let '(m, v) := value_undefined dbg base in value_type m v = Ret TyUndefined /\ read_doc m v = Ret TUndef) /\
  (forall b, let '(m, v) := value_bool dbg base b in
     value_type m v = Ret (if b then TyTrue else TyFalse) /\ to_bool m v = Ret b /\ read_doc m v = Ret (TBool b)).
Proof. exact constants. Qed.
Print Assumptions C49_constants.

(** C76: the numeric accessors convert numbers as casts do. *)
From Verif Require Import Prelude Float Decode NumberSpec NumberProofs Lib.
From Coq Require Import QArith Qabs Lia.
Local Open Scope Z_scope.

(* ---------- the conversions themselves ---------- *)

(** [as i64], [as i16], [as u16] of an f64: the fraction is cut off, what is out of range becomes
    the nearest bound and NaN becomes 0. *)
Theorem C76_truncate : forall lo hi bits, lo <= 0 <= hi -> 0 <= bits < two64 ->
  cast_to lo hi (f64_number bits) (int_of_f64 lo hi bits).
Proof. exact cast_spec. Qed.
Print Assumptions C76_truncate.

(** [as f64] of an integer gives the nearest f64, of two the even one, and is exact below 2^53. *)
Theorem C76_of_int : forall z, nearest 52 11 (inject_Z z) (f64_of_i64 z).
Proof. exact i64_to_f64. Qed.
Print Assumptions C76_of_int.
Theorem C76_exact_int : forall z, Z.abs z < 2 ^ 53 -> same_number (f64_number (f64_of_i64 z)) (Finite (inject_Z z)).
Proof. exact i64_exact. Qed.
Print Assumptions C76_exact_int.

(** [as f32] of an f64 gives the nearest f32; [as f64] of an f32 changes nothing. *)
Theorem C76_narrow : forall bits, 0 <= bits < two64 -> rounded 23 8 (f64_number bits) (f32_of_f64 bits).
Proof. exact f64_to_f32. Qed.
Print Assumptions C76_narrow.
Theorem C76_widen : forall bits, 0 <= bits < two32 -> same_number (f64_number (f64_of_f32 bits)) (f32_number bits).
Proof. exact f32_to_f64. Qed.
Print Assumptions C76_widen.
Example C76_conversions_example :
  f64_number 0x3FF8000000000000 = Finite (6755399441055744 # 4503599627370496) /\ (6755399441055744 # 4503599627370496 == 3 # 2)%Q /\
  f32_number 0x3FC00000 = Finite (12582912 # 8388608) /\ f32_of_f64 0x3FF8000000000000 = 0x3FC00000 /\ f64_of_f32 0x3FC00000 = 0x3FF8000000000000 /\
  f64_number 0xFFF0000000000000 = Infinite true /\ f64_number 0x7FF8000000000000 = NaN /\
  int_of_f64 (-32768) 32767 0xC0E0002000000000 = -32768 /\ int_of_f64 0 65535 0xBFF8000000000000 = 0.
Proof. vm_compute. repeat split. Qed.

(* ---------- the accessors ---------- *)

Theorem C76_float32 : forall e v bits, float32_value e v bits ->
  (exists d, to_double e v = Ret d /\ same_number (f64_number d) (f32_number bits)) /\
  to_float e v = Ret (quiet32 bits) /\ float_accessors e v (f32_number bits).
Proof. exact float32_reads. Qed.
Print Assumptions C76_float32.
Example C76_float32_example : let e := mk_env true 4096 [0x20;0;0;0;32;192] None in
  float32_value e (V 0 6) 0xC0200000 /\ (exists q, f32_number 0xC0200000 = Finite q /\ (q == - 5 # 2)%Q) /\
  to_double e (V 0 6) = Ret 0xC004000000000000 /\ to_int e (V 0 6) = Ret (-2) /\ to_short e (V 0 6) = Ret (-2) /\ to_unsigned_short e (V 0 6) = Ret 0.
Proof.
  cbv zeta. split.
  - exists 32, [0;0;32;192]. split.
    + split; [vm_compute; discriminate|]. split; [repeat constructor; vm_compute; (reflexivity || discriminate)|]. exists [], [0;0;0;32;192]. split; reflexivity.
    + split; [lia|]. split; [|split; reflexivity]. split; [vm_compute; discriminate|]. split; [repeat constructor; vm_compute; (reflexivity || discriminate)|]. exists [32;0], []. split; reflexivity.
  - split; [eexists; split; [vm_compute; reflexivity|reflexivity]|]. vm_compute. repeat split.
Qed.

Theorem C76_float64 : forall e v bits, float64_value e v bits ->
  to_double e v = Ret bits /\ (exists f, to_float e v = Ret f /\ rounded 23 8 (f64_number bits) f) /\
  float_accessors e v (f64_number bits).
Proof. exact float64_reads. Qed.
Print Assumptions C76_float64.
Example C76_float64_example : let e := mk_env true 4096 [0x28;0;0;0;0;0;0;106;248;64] None in
  float64_value e (V 0 10) 0x40F86A0000000000 /\ (exists q, f64_number 0x40F86A0000000000 = Finite q /\ (q == 100000)%Q) /\
  to_int e (V 0 10) = Ret 100000 /\ to_short e (V 0 10) = Ret 32767 /\ to_unsigned_short e (V 0 10) = Ret 65535 /\ to_bool e (V 0 10) = Ret true.
Proof.
  cbv zeta. split.
  - exists 40, [0;0;0;0;0;106;248;64]. split.
    + split; [vm_compute; discriminate|]. split; [repeat constructor; vm_compute; (reflexivity || discriminate)|]. exists [], [0;0;0;0;0;0;106;248;64]. split; reflexivity.
    + split; [lia|]. split; [|split; reflexivity]. split; [vm_compute; discriminate|]. split; [repeat constructor; vm_compute; (reflexivity || discriminate)|]. exists [40;0], []. split; reflexivity.
  - split; [eexists; split; [vm_compute; reflexivity|reflexivity]|]. vm_compute. repeat split.
Qed.

(** Integers: the unsigned and the 16-bit accessors keep the low bits; [to_double] gives the
    nearest f64, [to_float] the f32 nearest to that. *)
Theorem C76_int_partial : forall e v t z, value_type e v = Ret t -> t = TyShort \/ t = TyInt \/ t = TyUnsignedInt -> to_int e v = Ret z ->
  to_unsigned_int e v = Ret (z mod 2 ^ 64) /\
  (exists d f, to_double e v = Ret d /\ nearest 52 11 (inject_Z z) d /\
     (Z.abs z < 2 ^ 53 -> same_number (f64_number d) (Finite (inject_Z z))) /\
     to_float e v = Ret f /\ rounded 23 8 (f64_number d) f) /\
  (t <> TyShort -> (exists s, to_short e v = Ret s /\ low16 z s) /\ to_unsigned_short e v = Ret (z mod 65536)).
Proof. exact int_accessors. Qed.
Print Assumptions C76_int_partial.
Example C76_int_example : let e := mk_env true 4096 [0x12;0;0;1] None in
  value_type e (V 0 4) = Ret TyInt /\ to_int e (V 0 4) = Ret 65536 /\ to_short e (V 0 4) = Ret 0 /\ to_unsigned_short e (V 0 4) = Ret 0 /\
  to_double e (V 0 4) = Ret 0x40F0000000000000 /\ to_float e (V 0 4) = Ret 0x47800000.
Proof. vm_compute. repeat split. Qed.

Theorem C76_unsigned : forall e v n, unsigned_value e v n ->
  value_type e v = Ret TyUnsignedInt /\ to_unsigned_int e v = Ret n /\
  to_int e v = Ret (if n <? 2 ^ 63 then n else n - 2 ^ 64).
Proof. exact unsigned_reads. Qed.
Print Assumptions C76_unsigned.
Example C76_unsigned_example : let e := mk_env true 4096 [0x1F;255;255;255;255;255;255;255;255;0] None in
  unsigned_value e (V 0 10) (2 ^ 64 - 1) /\ to_unsigned_int e (V 0 10) = Ret (2 ^ 64 - 1).
Proof.
  cbv zeta. split; [|vm_compute; reflexivity].
  exists [255;255;255;255;255;255;255;255]. split; [vm_compute; split; discriminate|]. split; [|split; [|reflexivity]].
  - split; [vm_compute; discriminate|]. split; [repeat constructor; vm_compute; (reflexivity || discriminate)|]. exists [], [255;255;255;255;255;255;255;255;0]. split; reflexivity.
  - split; [vm_compute; discriminate|]. split; [repeat constructor; vm_compute; (reflexivity || discriminate)|]. exists [31], [0]. split; reflexivity.
Qed.

Theorem C76_true : forall e v, has_bytes e v 0 [0x38] ->
  to_int e v = Ret 1 /\ to_unsigned_int e v = Ret 1 /\ to_short e v = Ret 1 /\ to_unsigned_short e v = Ret 1 /\ to_bool e v = Ret true /\
  (exists d, to_double e v = Ret d /\ same_number (f64_number d) (Finite 1)) /\
  (exists f, to_float e v = Ret f /\ same_number (f32_number f) (Finite 1)).
Proof. exact true_reads. Qed.
Print Assumptions C76_true.
Example C76_true_example : let e := mk_env true 4096 [0x38;0] None in has_bytes e (V 0 2) 0 [0x38] /\ to_int e (V 0 2) = Ret 1.
Proof. cbv zeta. split; [|reflexivity]. split; [vm_compute; discriminate|]. split; [repeat constructor; vm_compute; (reflexivity || discriminate)|]. exists [], [0]. split; reflexivity. Qed.

(* ---------- what the code does not do ---------- *)

(** [to_double] of an unsigned integer from 2^63 on is negative. *)
Theorem C76_refuted_to_double : exists e v, unsigned_value e v (2 ^ 64 - 1) /\
  to_unsigned_int e v = Ret (2 ^ 64 - 1) /\ exists d y, to_double e v = Ret d /\ f64_number d = Finite y /\ (y == - (1))%Q.
Proof.
  exists (mk_env true 4096 [0x1F;255;255;255;255;255;255;255;255;0] None), (V 0 10).
  split; [exact (proj1 C76_unsigned_example)|]. split; [vm_compute; reflexivity|].
  eexists _, _. split; [vm_compute; reflexivity|]. split; [vm_compute; reflexivity|reflexivity].
Qed.
Print Assumptions C76_refuted_to_double.
(** [to_float] of an integer rounds twice, and is then not the nearest f32. *)
Theorem C76_refuted_to_float : exists e v z f, value_type e v = Ret TyInt /\ to_int e v = Ret z /\ to_float e v = Ret f /\
  ~ nearest 23 8 (inject_Z z) f.
Proof.
  exists (mk_env true 4096 [0x17;1;0;0;0;16;0;0;16;0] None), (V 0 10), (2 ^ 60 + 2 ^ 36 + 1), (f32_of_f64 (f64_of_i64 (2 ^ 60 + 2 ^ 36 + 1))).
  repeat (split; [vm_compute; reflexivity|]). exact twice_rounded.
Qed.
Print Assumptions C76_refuted_to_float.

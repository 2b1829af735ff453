(** Lemmas about single values: integers, floats, texts, accessors, pointers. *)
From Verif Require Import Prelude Lib Varint VarintProofs Utf8 Float SharedKeys
  Decode Read Encodable Encoder BuilderSpec Holds Repr EncodableProofs Stored StoredRead SlotProofs
  EncoderProofs EncoderInv EncoderClean EncoderProtocol Isort ValueSpec Access Flat Constants.
From Coq Require Import ZifyBool ZifyNat ZifyN.
Ltac Zify.zify_post_hook ::= Z.div_mod_to_equations.
#[local] Existing Instance any_key.

Lemma reads_weaken c vs i (P Q : env -> val -> Prop) :
  (forall m x, P m x -> Q m x) -> reads_element c vs i P -> reads_element c vs i Q.
Proof.
  intros H (e' & bs & H1 & H2 & H3). exists e', bs. split; [exact H1|]. split; [exact H2|].
  intros dbg base Ha. destruct (H3 dbg base Ha) as (r & x & Hx). exists r, x. intuition.
Qed.

Lemma flat_elem c vs i v t (P : env -> val -> Prop) :
  sort_ok (c_sort c) -> writable vs -> nthZ vs i = Some v -> stored_value v = Some t ->
  (forall m x f, read_tree (S f) m x = Ret t -> P m x) -> reads_element c vs i P.
Proof.
  intros Hs (Hw & Hst & Hfl) Hi Ht HP. eapply reads_weaken; [|eapply flat_read; eauto].
  cbv beta. intros m x H. apply (HP m x 0%nat). apply H.
Qed.

(* ---------- integers ---------- *)

Lemma int_elem c vs i t z n :
  sort_ok (c_sort c) -> writable vs -> nthZ vs i = Some (EInt t z) -> stored_value (EInt t z) = Some (TInt n) ->
  reads_element c vs i (fun m x => (- two63 <= n < two63 -> to_int m x = Ret n) /\
    (0 <= n < two64 -> to_unsigned_int m x = Ret n)).
Proof.
  intros Hs Hw Hi Hn. eapply flat_elem; eauto. intros m x f Hr. destruct (read_int m x n f Hr) as (H1 & H2 & _). auto.
Qed.

Lemma stored_u32 z : 0 <= z < two32 -> stored_value (EInt U32 z) = Some (TInt z).
Proof.
  intros Hz. cbn [stored_value]. destruct (z <=? 2047) eqn:E; [reflexivity|].
  pose proof (u32_uint_ok z ltac:(lia)) as H. pose proof (ctz64_bound z 32 ltac:(change (2 ^ 32) with two32; lia) ltac:(lia)).
  cbv zeta. destruct (8 - (ctz64 z + 7) / 8 <=? 0) eqn:E2; [lia|]. rewrite Z.mod_small by lia. reflexivity.
Qed.
Lemma stored_u64 t z : t = U64 \/ t = Usize -> 0 <= z < two64 ->
  z <= 2047 \/ z < 256 ^ (8 - (ctz64 z + 7) / 8) -> stored_value (EInt t z) = Some (TInt z).
Proof.
  intros Ht Hz H.
  assert ((if z <=? 2047 then Some (TInt z) else let k := 8 - (ctz64 z + 7) / 8 in
               if k <=? 0 then None else Some (TInt (z mod 256 ^ k))) = Some (TInt z)) as E.
  { destruct (z <=? 2047) eqn:E; [reflexivity|]. destruct H as [H|H]; [lia|]. cbv zeta.
    destruct (8 - (ctz64 z + 7) / 8 <=? 0) eqn:E2.
    - assert (8 - (ctz64 z + 7) / 8 = 0 \/ 8 - (ctz64 z + 7) / 8 < 0) as [E3|E3] by lia.
      + rewrite E3 in H. cbn in H. lia.
      + rewrite Z.pow_neg_r in H by lia. lia.
    - rewrite Z.mod_small by lia. reflexivity. }
  destruct Ht as [-> | ->]; exact E.
Qed.

Lemma unsigned_elem c vs i t z :
  sort_ok (c_sort c) -> writable vs -> nthZ vs i = Some (EInt t z) -> t = U32 \/ t = U64 \/ t = Usize ->
  2047 < z ->
  reads_element c vs i (fun m x => to_unsigned_int m x = Ret (z mod 256 ^ (8 - (ctz64 z + 7) / 8))).
Proof.
  intros Hs Hw Hi Ht Hz. pose proof Hw as (Hwf & Hst & _).
  assert (Hin : In (EInt t z) vs) by (eapply nthZ_In; eauto).
  rewrite Forall_forall in Hst. specialize (Hst _ Hin). rewrite Forall_forall in Hwf. specialize (Hwf _ Hin).
  assert (Hr : 0 <= z < two64) by (cbn [wf_enc] in Hwf; destruct Ht as [-> | [-> | ->]]; cbn in Hwf; unfold two32, two64 in *; lia).
  assert (Hsv : stored_value (EInt t z) = Some (TInt (z mod 256 ^ (8 - (ctz64 z + 7) / 8)))).
  { assert (stored_value (EInt t z) = let k := 8 - (ctz64 z + 7) / 8 in
               if k <=? 0 then None else Some (TInt (z mod 256 ^ k))) as E.
    { destruct Ht as [-> | [-> | ->]]; cbn [stored_value]; destruct (z <=? 2047) eqn:E; [lia|reflexivity|lia|reflexivity|lia|reflexivity]. }
    rewrite E in *. cbv zeta in *. destruct (8 - (ctz64 z + 7) / 8 <=? 0); [congruence|reflexivity]. }
  eapply reads_weaken; [|eapply int_elem; eauto]. cbv beta. intros m x [_ H]. apply H.
  destruct (Z_lt_le_dec (8 - (ctz64 z + 7) / 8) 0) as [Hn|Hp].
  - rewrite Z.pow_neg_r by lia. rewrite Zmod_0_r. lia.
  - assert (0 < 256 ^ (8 - (ctz64 z + 7) / 8)) by (apply Z.pow_pos_nonneg; lia).
    pose proof (Z.mod_pos_bound z (256 ^ (8 - (ctz64 z + 7) / 8)) ltac:(lia)).
    pose proof (Z.mod_le z (256 ^ (8 - (ctz64 z + 7) / 8)) ltac:(lia) ltac:(lia)). lia.
Qed.

Lemma ctz_bound z : 0 < z < two64 -> 0 <= ctz64 z < 64.
Proof. intros H. apply ctz64_bound; [unfold two64 in H; change (2 ^ 64) with 18446744073709551616; lia|lia]. Qed.

Lemma u64_panics c e t z : c_dbg c = true -> en_stack e <> [] -> t = U64 \/ t = Usize ->
  2047 < z < two64 -> 57 <= ctz64 z -> write_value c e (EInt t z) = Panic.
Proof.
  intros Hd He Ht Hz Hc. pose proof (ctz_bound z ltac:(lia)). unfold write_value. destruct (en_stack e); [congruence|].
  assert (to_sized_value (EInt t z) = None) as -> by (destruct Ht as [-> | ->]; cbn [to_sized_value]; destruct (z <=? 2047) eqn:E; [lia|reflexivity|lia|reflexivity]).
  unfold enc_write. cbn [andb].
  assert (write_to (c_dbg c) (EInt t z) (fleece_size (EInt t z)) false = Panic) as ->; [|reflexivity].
  assert (write_u64 (c_dbg c) z (u64_fleece_size z) false = Panic) as H1.
  { unfold write_u64. destruct (z <=? 2047) eqn:E; [lia|]. unfold write_u64_big.
    destruct (u64_fleece_size z <? u64_fleece_size z) eqn:E1; [lia|].
    assert (u64_fleece_size z = 1) as -> by (unfold u64_fleece_size; rewrite E; lia). rewrite Hd. reflexivity. }
  destruct Ht as [-> | ->]; exact H1.
Qed.

Lemma signed_elem c vs i t z :
  sort_ok (c_sort c) -> writable vs -> nthZ vs i = Some (EInt t z) -> ity_signed t = true ->
  reads_element c vs i (fun m x => to_int m x = Ret (wrap_i16 z)) /\ -2048 <= wrap_i16 z <= 2047.
Proof.
  intros Hs Hw Hi Ht. pose proof Hw as (_ & Hst & _).
  assert (Hin : In (EInt t z) vs) by (eapply nthZ_In; eauto). rewrite Forall_forall in Hst. specialize (Hst _ Hin).
  assert (Hsv : stored_value (EInt t z) = Some (TInt (wrap_i16 z)) /\ -2048 <= wrap_i16 z <= 2047).
  { assert (stored_value (EInt t z) = if (-2048 <=? wrap_i16 z) && (wrap_i16 z <=? 2047) then Some (TInt (wrap_i16 z)) else None) as E
      by (destruct t; try discriminate; reflexivity).
    rewrite E in *. destruct ((-2048 <=? wrap_i16 z) && (wrap_i16 z <=? 2047)) eqn:E2; [|congruence]. split; [reflexivity|lia]. }
  destruct Hsv as [Hsv Hr]. split; [|exact Hr].
  eapply reads_weaken; [|eapply int_elem; eauto]. cbv beta. intros m x [H _]. apply H. unfold two63. lia.
Qed.

Lemma write_i64_diverges fuel : forall z n w, ~ (-2048 <= wrap_i16 z <= 2047) -> write_i64 fuel z n w = Diverge.
Proof.
  induction fuel as [|f IH]; intros z n w Hz; [reflexivity|]. cbn [write_i64]. rewrite i64_is_short_true. cbv zeta.
  destruct ((2047 <? wrap_i16 z) || (wrap_i16 z <? -2048)) eqn:E; [|lia]. apply IH.
  rewrite wrap_i16_id by (pose proof (wrap_i16_range z); lia). lia.
Qed.
Lemma write_i16_diverges fuel z n w : -32768 <= z < 32768 -> ~ (-2048 <= z <= 2047) -> write_i16 fuel z n w = Diverge.
Proof.
  intros Hr Hz. unfold write_i16. destruct ((2047 <? z) || (z <? -2048)) eqn:E; [|lia]. apply write_i64_diverges.
  rewrite wrap_i16_id by lia. lia.
Qed.

Lemma signed_hangs c e t z : en_stack e <> [] -> t = I64 \/ t = I32 \/ t = Isize ->
  ~ (-2048 <= wrap_i16 z <= 2047) -> write_value c e (EInt t z) = Diverge.
Proof.
  intros He Ht Hz. unfold write_value. destruct (en_stack e); [congruence|].
  assert (to_sized_value (EInt t z) = None) as ->.
  { assert (i16_to_sized (wrap_i16 z) = None) as E.
    { unfold i16_to_sized. destruct ((2047 <? wrap_i16 z) || (wrap_i16 z <? -2048)) eqn:E; [reflexivity|lia]. }
    destruct Ht as [-> | [-> | ->]]; cbn [to_sized_value]; rewrite i64_is_short_true; exact E. }
  unfold enc_write. cbn [andb].
  assert (write_to (c_dbg c) (EInt t z) (fleece_size (EInt t z)) false = Diverge) as ->; [|reflexivity].
  destruct Ht as [-> | [-> | ->]]; cbn [write_to]; apply write_i64_diverges; exact Hz.
Qed.
Lemma i16_hangs c e z : en_stack e <> [] -> -32768 <= z < 32768 ->
  ~ (-2048 <= z <= 2047) -> write_value c e (EInt I16 z) = Diverge.
Proof.
  intros He Hr Hz. unfold write_value. destruct (en_stack e); [congruence|]. cbn [to_sized_value].
  unfold i16_to_sized. destruct ((2047 <? z) || (z <? -2048)) eqn:E; [|lia].
  unfold enc_write. cbn [andb write_to]. rewrite write_i16_diverges by lia. reflexivity.
Qed.
Lemma u16_panics c e z : en_stack e <> [] -> 2047 < z <= 65535 -> write_value c e (EInt U16 z) = Panic.
Proof.
  intros He Hz. unfold write_value. destruct (en_stack e); [congruence|]. cbn [to_sized_value].
  unfold u16_to_sized. destruct (2047 <? z) eqn:E; [|lia].
  unfold enc_write. cbn [andb write_to fleece_size]. unfold write_u16. rewrite E. unfold write_u64_big.
  pose proof (ctz64_bound z 16 ltac:(change (2 ^ 16) with 65536; lia) ltac:(lia)).
  assert (2 <? u64_fleece_size z = true) as ->; [|reflexivity].
  unfold u64_fleece_size. destruct (z <=? 2047) eqn:E2; lia.
Qed.
Lemma small_elem c vs i t z :
  sort_ok (c_sort c) -> writable vs -> nthZ vs i = Some (EInt t z) -> t = I8 \/ t = U8 \/ t = I16 \/ t = U16 ->
  reads_element c vs i (fun m x => to_int m x = Ret z).
Proof.
  intros Hs Hw Hi Ht. pose proof Hw as (Hwf & Hst & _).
  assert (Hin : In (EInt t z) vs) by (eapply nthZ_In; eauto). rewrite Forall_forall in Hst. specialize (Hst _ Hin).
  rewrite Forall_forall in Hwf. specialize (Hwf _ Hin).
  assert (Hsv : stored_value (EInt t z) = Some (TInt z) /\ - two63 <= z < two63).
  { cbn [wf_enc] in Hwf. split; [|destruct Ht as [-> | [-> | [-> | ->]]]; cbn in Hwf; unfold two63; lia].
    destruct Ht as [-> | [-> | [-> | ->]]]; cbn [stored_value ity_min ity_max] in *; cbv zeta in *;
      rewrite ?(wrap_i16_id z) in * by lia; repeat match goal with |- context [if ?b then _ else _] => destruct b eqn:? end; congruence. }
  destruct Hsv as [Hsv Hr]. eapply reads_weaken; [|eapply int_elem; eauto]. cbv beta. intros m x [H _]. auto.
Qed.
Lemma stored_i8_u8 t z : t = I8 \/ t = U8 -> wf_enc (EInt t z) -> stored_value (EInt t z) = Some (TInt z).
Proof.
  intros [-> | ->]; cbn [wf_enc ity_min ity_max stored_value]; intros H; cbv zeta.
  - rewrite wrap_i16_id by lia. replace ((-2048 <=? z) && (z <=? 2047)) with true by lia. reflexivity.
  - replace (z <=? 2047) with true by lia. reflexivity.
Qed.

(* ---------- floats, texts ---------- *)

Lemma f64_elem c vs i b : sort_ok (c_sort c) -> writable vs -> nthZ vs i = Some (EF64 b) ->
  reads_element c vs i (fun m x => to_double m x = Ret b).
Proof. intros Hs Hw Hi. eapply flat_elem; eauto; [reflexivity|]. intros m x f. apply read_f64. Qed.
Lemma f32_elem c vs i b : sort_ok (c_sort c) -> writable vs -> nthZ vs i = Some (EF32 b) ->
  reads_element c vs i (fun m x => to_float m x = Ret (quiet32 b)).
Proof. intros Hs Hw Hi. eapply flat_elem; eauto; [reflexivity|]. intros m x f. apply read_f32. Qed.
Lemma str_elem c vs i s : sort_ok (c_sort c) -> writable vs -> nthZ vs i = Some (EStr s) ->
  reads_element c vs i (fun m x => value_type m x = Ret TyString /\ to_str m x = Ret s /\ (s <> [] -> to_data m x = Ret s)).
Proof. intros Hs Hw Hi. eapply flat_elem; eauto; [reflexivity|]. intros m x f Hr. destruct (read_str _ _ _ _ Hr) as [H1 H2]. split; [exact H1|]. split; [exact H2|]. exact (str_data _ _ _ H1 H2). Qed.
Lemma data_elem c vs i s : sort_ok (c_sort c) -> writable vs -> nthZ vs i = Some (EData s) ->
  reads_element c vs i (fun m x => value_type m x = Ret TyData /\ to_data m x = Ret s).
Proof. intros Hs Hw Hi. eapply flat_elem; eauto; [reflexivity|]. intros m x f. apply read_data. Qed.

(** A single text of at least two bytes, alone in its array. *)
Lemma varint_size_bounds n : 0 < n < two64 -> 1 <= varint_size n <= 10.
Proof.
  intros H. unfold varint_size. destruct (n =? 0) eqn:E; [lia|].
  pose proof (Z.log2_nonneg n). assert (Z.log2 n < 64) by (apply Z.log2_lt_pow2; [lia|change (2 ^ 64) with two64; lia]). lia.
Qed.
Lemma single_text v s : v = EStr s \/ v = EData s -> wf_enc v -> 2 <= lenZ s -> lenZ s <= MAX_WIDE - 64 ->
  (lenZ s < 16378 \/ 16379 < lenZ s) -> writable [v].
Proof.
  intros Hv Hw Hl Hm Hx. split; [constructor; [exact Hw|constructor]|]. split.
  { constructor; [destruct Hv as [-> | ->]; discriminate|constructor]. }
  assert (Ho : content [v] = bytes_fleece_size (lenZ s) + bytes_fleece_size (lenZ s) mod 2).
  { cbn [content fold_right]. unfold outside.
    assert (to_sized_value v = None) as ->.
    { destruct s as [|a [|b s]]; cbn in Hl; try lia. destruct Hv as [-> | ->]; reflexivity. }
    destruct Hv as [-> | ->]; cbn [fleece_size]; lia. }
  unfold flat_ok. rewrite Ho. change (lenZ [v]) with 1.
  unfold bytes_fleece_size. destruct (lenZ s <=? 1) eqn:E1; [lia|]. unfold MAX_WIDE, MAX_NARROW in *.
  assert (Hns : forallb no_short_text [v] = true) by (cbn [forallb]; destruct Hv as [-> | ->]; cbn [no_short_text]; lia).
  rewrite Hns. change (header 1) with 2.
  assert (Hrc : forall d, d <= 16383 -> reach d [v] = true).
  { intros d Hd. cbn [reach]. destruct (to_sized_value v); [reflexivity|]. unfold MAX_NARROW. rewrite andb_true_r. lia. }
  destruct (lenZ s <=? 14) eqn:E2; [split; [lia|right; split; [reflexivity|apply Hrc; lia]]|].
  assert (Hvs : 16380 <= lenZ s -> 2 <= varint_size (lenZ s)).
  { intros Hge. unfold varint_size. destruct (lenZ s =? 0) eqn:E; [lia|].
    assert (Z.log2 16380 <= Z.log2 (lenZ s)) by (apply Z.log2_le_mono; lia). change (Z.log2 16380) with 13 in *. lia. }
  assert (Hvs2 : lenZ s < 16384 -> varint_size (lenZ s) <= 2).
  { intros Hlt. unfold varint_size. destruct (lenZ s =? 0) eqn:E; [lia|].
    assert (Z.log2 (lenZ s) < 14) by (apply Z.log2_lt_pow2; [lia|change (2 ^ 14) with 16384; lia]). lia. }
  pose proof (varint_size_bounds (lenZ s) ltac:(unfold two64; lia)).
  split; [lia|]. destruct Hx as [Hx|Hx]; [right; split; [reflexivity|apply Hrc; lia]|left; lia].
Qed.

(* ---------- C26, C27, C28 ---------- *)

Lemma vbyte_len e v i b : vbyte e v i = Ret b -> 0 <= i < v_len v /\ raw e (v_pos v + i) = Ret b.
Proof. unfold vbyte. destruct ((0 <=? i) && (i <? v_len v)) eqn:E; [intros H; split; [lia|exact H]|discriminate]. Qed.

Lemma short_reads e v n : -2048 <= n <= 2047 -> holds_short_value e v n ->
  value_type e v = Ret TyShort /\ to_short e v = Ret n /\ to_int e v = Ret n /\
  to_unsigned_int e v = Ret (n mod two64) /\ to_unsigned_short e v = Ret (n mod 4096).
Proof.
  intros Hn [H0 H1]. assert (Ht : value_type e v = Ret TyShort).
  { unfold value_type. rewrite H0. cbn [bind]. rewrite type_short by lia. reflexivity. }
  apply vbyte_len in H0 as [Hl0 H0]. apply vbyte_len in H1 as [Hl1 H1]. rewrite Z.add_0_r in H0.
  assert (Hg : get_short e v = Ret (n mod 4096)).
  { unfold get_short. destruct (v_len v <? 2) eqn:E; [lia|]. rewrite H0; cbn [bind]. rewrite H1; cbn [bind].
    f_equal. rewrite land_15. lia. }
  assert (Hs : short_of_12bit (n mod 4096) = n).
  { assert (E : (short_of_12bit ((n + 2048 - 2048) mod 4096) =? n + 2048 - 2048) = true).
    { apply (range_sweep (fun k => short_of_12bit ((k - 2048) mod 4096) =? k - 2048) 4096); [vm_compute; reflexivity|lia]. }
    replace (n + 2048 - 2048) with n in E by lia. lia. }
  split; [exact Ht|]. unfold to_unsigned_int, to_short, to_int, to_unsigned_short. rewrite Ht. cbn [bind]. rewrite Hg. cbn [bind].
  rewrite Hs. auto.
Qed.

Lemma int_reads e v k bs : (1 <= k <= 8)%nat -> length bs = k -> all_bytes bs ->
  vbyte e v 0 = Ret (16 + (Z.of_nat k - 1)) -> raw_bytes e (v_pos v + 1) (Z.of_nat k) = Ret bs ->
  value_type e v = Ret TyInt /\ to_int e v = Ret (if (k <? 8)%nat then le_val bs else signed_le bs).
Proof.
  intros Hk Hl Hb H0 H1.
  assert (Hty : type_of_byte (16 + (Z.of_nat k - 1)) = TyInt /\ Z.land (16 + (Z.of_nat k - 1)) 7 + 1 = Z.of_nat k).
  { assert (E : (vtype_eqb (type_of_byte (16 + (Z.of_nat k - 1))) TyInt && (Z.land (16 + (Z.of_nat k - 1)) 7 =? Z.of_nat k - 1)) = true).
    { apply (range_sweep (fun j => vtype_eqb (type_of_byte (16 + j)) TyInt && (Z.land (16 + j) 7 =? j)) 8); [reflexivity|lia]. }
    apply andb_true_iff in E as [E1 E2]. split; [apply vtype_eqb_eq; exact E1|lia]. }
  destruct Hty as [Hty Hc].
  assert (Ht : value_type e v = Ret TyInt) by (unfold value_type; rewrite H0; cbn [bind]; rewrite Hty; reflexivity).
  split; [exact Ht|]. unfold to_int. rewrite Ht; cbn [bind]. unfold int_payload. rewrite H0; cbn [bind].
  apply vbyte_len in H0 as [Hl0 _]. destruct (v_len v <? 1) eqn:E; [lia|]. rewrite Hc, H1. cbn [bind]. f_equal.
  assert (Hlv : 0 <= le_val bs < 256 ^ Z.of_nat k) by (pose proof (le_val_bound bs Hb) as Hq; unfold lenZ in Hq; rewrite Hl in Hq; exact Hq).
  unfold signed_le, lenZ. rewrite Hl. unfold wrap_i64.
  destruct (k <? 8)%nat eqn:Ek.
  - assert (256 ^ Z.of_nat k <= 256 ^ 7) by (apply Z.pow_le_mono_r; lia). change (256 ^ 7) with 72057594037927936 in *.
    unfold two63, two64. lia.
  - assert (k = 8%nat) as -> by lia. change (256 ^ Z.of_nat 8) with two64 in *. cbv zeta. unfold two63, two64 in *.
    destruct (le_val bs <? 18446744073709551616 / 2) eqn:E2; lia.
Qed.

Lemma bool_reads e v t z : value_type e v = Ret t -> is_number t = true -> t <> TyUnsignedInt -> to_int e v = Ret z ->
  to_bool e v = Ret (negb (z =? 0)).
Proof. intros Ht Hn Hu Hz. unfold to_bool. rewrite Ht. cbn [bind]. destruct t; try discriminate; try congruence; rewrite Hz; reflexivity. Qed.

Lemma defaults e v t : value_type e v = Ret t ->
  (is_number t = false -> t <> TyTrue ->
     to_int e v = Ret 0 /\ to_unsigned_int e v = Ret 0 /\ to_short e v = Ret 0 /\ to_unsigned_short e v = Ret 0 /\
     to_double e v = Ret (f64_of_i64 0) /\ to_float e v = Ret 0) /\
  (t <> TyString -> to_str e v = Ret []) /\
  (t <> TyString -> t <> TyData -> to_data e v = Ret []) /\
  (is_number t = false -> t <> TyFalse -> to_bool e v = Ret true) /\
  (t = TyFalse -> to_bool e v = Ret false) /\
  (t <> TyArray -> as_array e v = Ret None) /\ (t <> TyDict -> as_dict e v = Ret None).
Proof.
  intros Ht. unfold to_str, to_data, to_bool, as_array, as_dict, to_unsigned_int, to_float, to_double, to_int, to_short, to_unsigned_short.
  rewrite Ht. cbn [bind].
  repeat split; intros; destruct t; try congruence; try discriminate; reflexivity.
Qed.

(* ---------- C48 ---------- *)

Lemma get_offset_holds e p len (wide : bool) bs : holds (e_data e) p bs -> lenZ bs = width_of wide ->
  get_offset e (V p len) wide = Ret ((be_val bs mod (if wide then 1073741824 else 16384)) * 2).
Proof.
  intros Hh Hl. unfold get_offset. destruct wide; cbn [width_of] in Hl; cbn [v_pos].
  - rewrite (holds_raw_bytes _ _ _ _ Hh) by lia. cbn [bind]. f_equal. f_equal.
    change 1073741823 with (Z.ones 30). rewrite Z.land_ones by lia. reflexivity.
  - rewrite (holds_raw_bytes _ _ _ _ Hh) by lia. cbn [bind]. f_equal. f_equal.
    change 16383 with (Z.ones 14). rewrite Z.land_ones by lia. reflexivity.
Qed.

Lemma pointer_round_trip off (wide : bool) : 0 <= off <= MAX_WIDE -> off mod 2 = 0 ->
  exists p bs, new_pointer off = Some p /\ sized_type p = TyPointer /\ pointer_offset p = off /\
    write_sized p 4 wide = Ret (Some bs) /\ lenZ bs = width_of (wide || (MAX_NARROW <? off)) /\
    forall e pos len, holds (e_data e) pos bs ->
      get_offset e (V pos len) (wide || (MAX_NARROW <? off)) = Ret off.
Proof.
  intros H Hev. pose proof (is_ptr_mkptr off H) as Hp. unfold is_ptr in Hp. apply vtype_eqb_eq in Hp.
  exists (mkptr off). set (w := wide || (MAX_NARROW <? off)).
  exists (if w then be_bytes 4 (off / 2 + 2147483648) else be_bytes 2 (off / 2 + 32768)).
  split; [apply new_pointer_ok; exact H|]. split; [exact Hp|]. split; [apply pointer_offset_mkptr; exact H|].
  split.
  { unfold write_sized. rewrite Hp, pointer_offset_mkptr by exact H. rewrite orb_comm. fold w. unfold MAX_WIDE, MAX_NARROW in *.
    destruct w eqn:Ew.
    - change (4 <? 4) with false. cbv iota. rewrite be4 by lia. unfold TAG_POINTER. rewrite lor128 by lia. rewrite be4 by lia.
      apply f_equal, f_equal. repeat (apply f_equal2; [lia|]). reflexivity.
    - change (4 <? 2) with false. cbv iota. assert (off <= 16383) by (unfold w in Ew; lia).
      rewrite be2 by lia. unfold TAG_POINTER. rewrite lor128 by lia. rewrite be2 by lia.
      apply f_equal, f_equal. repeat (apply f_equal2; [lia|]). reflexivity. }
  assert (Hl : lenZ (if w then be_bytes 4 (off / 2 + 2147483648) else be_bytes 2 (off / 2 + 32768)) = width_of w)
    by (destruct w; unfold lenZ; rewrite be_bytes_length; reflexivity).
  split; [exact Hl|]. intros e pos len Hh. rewrite (get_offset_holds e pos len w _ Hh Hl). f_equal.
  unfold MAX_WIDE, MAX_NARROW in *. destruct w eqn:Ew.
  - rewrite be_val_be_bytes by lia. change (256 ^ Z.of_nat 4) with 4294967296. lia.
  - assert (off <= 16383) by (unfold w in Ew; lia). rewrite be_val_be_bytes by lia. change (256 ^ Z.of_nat 2) with 65536. lia.
Qed.
Lemma pointer_too_large off : MAX_WIDE < off -> new_pointer off = None.
Proof. intros H. unfold new_pointer. destruct (MAX_WIDE <? off) eqn:E; [reflexivity|lia]. Qed.

(* ---------- C47 ---------- *)

Lemma enc_write_big c e v t : wrote v t -> to_sized_value v = None -> lenZ (en_out e) mod 2 = 0 ->
  exists X, enc_write c e v false false = Ret (set_out e (en_out e ++ X), wrap_u32 (lenZ (en_out e))) /\ lenZ X = outside v.
Proof.
  intros [(b0 & b1 & Es & _)|[Es Hv]] Hn Hev; [congruence|]. destruct (Hv (c_dbg c)) as (bs & Hwr & Hl & _).
  exists (pad_even bs). unfold enc_write. cbn [andb]. rewrite Hwr; cbn [bind]. rewrite Hl, Z.eqb_refl.
  rewrite pad_even_app by exact Hev. split; [reflexivity|]. rewrite pad_even_len, Hl. unfold outside. rewrite Es. reflexivity.
Qed.

Lemma value_too_large c e v t : wf_enc v -> stored_value v = Some t -> to_sized_value v = None -> en_stack e <> [] ->
  lenZ (en_out e) mod 2 = 0 -> MAX_WIDE < lenZ (en_out e) < two32 ->
  exists e', write_value c e v = Ret (e', Err PointerTooLarge).
Proof.
  intros Hw Hs Hn He Hev Hl. unfold write_value. destruct (en_stack e) eqn:E; [congruence|]. rewrite Hn.
  destruct (enc_write_big c e v t (wrote_stored v t Hw Hs) Hn Hev) as (X & -> & _). cbn [bind].
  rewrite wrap_u32_id by (unfold MAX_WIDE in Hl; lia). rewrite pointer_too_large by lia. eauto.
Qed.

Lemma value_wraps c D ss v t : wf_enc v -> stored_value v = Some t -> to_sized_value v = None ->
  lenZ D mod 2 = 0 -> two32 <= lenZ D <= two32 + MAX_WIDE ->
  exists X, write_value c (mk_enc D None [CArr ss] false) v =
    Ret (mk_enc (D ++ X) None [CArr (ss ++ [mkptr (lenZ D - two32)])] false, Ok tt).
Proof.
  intros Hw Hs Hn Hev Hl. unfold write_value. cbn [en_stack]. rewrite Hn.
  destruct (enc_write_big c (mk_enc D None [CArr ss] false) v t (wrote_stored v t Hw Hs) Hn Hev) as (X & -> & _). cbn [bind en_out].
  assert (wrap_u32 (lenZ D) = lenZ D - two32) as ->.
  { unfold wrap_u32, MAX_WIDE in *. unfold two32 in *. lia. }
  rewrite new_pointer_ok by lia. exists X. reflexivity.
Qed.

Lemma close_panics c D sk off ss st cl : lenZ D mod 2 = 0 -> 0 <= off <= MAX_WIDE -> 0 <= lenZ ss < two32 ->
  MAX_WIDE < lenZ D - off -> lenZ D + 22 < two32 ->
  end_array c (mk_enc D sk (CArr (mkptr off :: ss) :: st) cl) = Panic.
Proof.
  intros Hev Ho Hss Hd Hm. unfold end_array. cbn [stack_pop en_stack set_stack en_out array_should_be_wide].
  rewrite is_ptr_mkptr by exact Ho. unfold actual_pointer_offset. rewrite pointer_offset_mkptr by exact Ho.
  unfold usize_sub. unfold MAX_WIDE in *. destruct (off <=? lenZ D) eqn:E; [|lia]. cbn [bind].
  rewrite wrap_u32_id by lia. unfold MAX_NARROW. destruct (16383 <? lenZ D - off) eqn:E2; [|lia]. cbn [bind].
  set (e0 := set_stack (mk_enc D sk (CArr (mkptr off :: ss) :: st) cl) st).
  destruct (enc_write_hdr c e0 false (lenZ (mkptr off :: ss)) true) as (pad & Hw & Hl).
  { exact Hev. } { rewrite lenZ_cons. unfold two32, two63 in *. lia. }
  rewrite Hw. cbn [bind]. cbn [set_out en_out]. unfold e0 at 1 2. cbn [set_stack en_out]. rewrite lenZ_app, Hl.
  assert (Hh : 2 <= hdr_size (lenZ (mkptr off :: ss)) <= 14).
  { unfold hdr_size. destruct (2047 <=? lenZ (mkptr off :: ss)) eqn:E3; [|lia].
    pose proof (varint_size_bounds (lenZ (mkptr off :: ss)) ltac:(rewrite lenZ_cons in *; unfold two32, two64 in *; lia)). lia. }
  rewrite wrap_u32_id by lia. cbn [fix_array_pointers]. rewrite is_ptr_mkptr by (unfold MAX_WIDE; exact Ho).
  unfold fix_pointer, actual_pointer_offset. rewrite pointer_offset_mkptr by (unfold MAX_WIDE; exact Ho). unfold usize_sub.
  destruct (off <=? lenZ D + hdr_size (lenZ (mkptr off :: ss))) eqn:E4; [|lia]. cbn [bind].
  rewrite wrap_u32_id by lia. rewrite pointer_too_large by (unfold MAX_WIDE; lia). reflexivity.
Qed.

(** An array with one data blob of [n] zero bytes. *)
Definition zeros (n : Z) : list Z := repeat 0 (Z.to_nat n).
Lemma zeros_len n : 0 <= n -> lenZ (zeros n) = n.
Proof. intros H. unfold lenZ, zeros. rewrite repeat_length. lia. Qed.
Lemma zeros_wf n : 0 <= n < two63 -> wf_enc (EData (zeros n)).
Proof.
  intros H. split; [|rewrite zeros_len by lia; lia]. unfold zeros. apply Forall_forall. intros x Hx. apply repeat_spec in Hx. subst. unfold is_byte. lia.
Qed.
Lemma blob_written c n m : 2 <= n < two63 -> m = bytes_fleece_size n -> m mod 2 = 0 ->
  exists D, enc_run c enc_new [OpBeginArray 0; OpValue (EData (zeros n))] =
      Ret (mk_enc D None [CArr [mkptr 0]] false, [Ok tt; Ok tt]) /\ lenZ D = m.
Proof.
  intros Hn Hm Hev. cbn [enc_run enc_step]. unfold begin_array, enc_new, enc_new_to_vec. cbn [en_closed en_stack top_waits_for_key].
  change (two63 <=? 0 * 4) with false. cbv iota. cbn [bind fst snd]. unfold set_stack; cbn [en_out en_sk en_closed].
  pose proof (wrote_stored (EData (zeros n)) _ (zeros_wf n ltac:(lia)) eq_refl) as Hw.
  assert (Hlen := zeros_len n ltac:(lia)).
  destruct (value_step c [] None [] [] _ _ Hw eq_refl ltac:(cbn; unfold MAX_WIDE; lia) ltac:(constructor)) as (X & Hx & Hl & _).
  cbn [enc_step] in Hx. rewrite Hx. cbn [bind fst snd].
  assert (Hns : to_sized_value (EData (zeros n)) = None).
  { cbn [to_sized_value]. destruct (zeros n) as [|a [|b l]]; cbn in Hlen; try lia. reflexivity. }
  exists X. split.
  - cbn [app slots_of]. rewrite Hns. reflexivity.
  - rewrite Hl. unfold outside. rewrite Hns. cbn [fleece_size]. rewrite Hlen. lia.
Qed.
Lemma big_fleece_size n k : 2 ^ (7 * (k - 1)) <= n < 2 ^ (7 * k) -> 2 <= k -> bytes_fleece_size n = 1 + k + n.
Proof.
  intros Hn Hk. assert (2 ^ 7 <= 2 ^ (7 * (k - 1))) by (apply Z.pow_le_mono_r; lia). change (2 ^ 7) with 128 in *.
  unfold bytes_fleece_size. destruct (n <=? 1) eqn:E1; [lia|]. destruct (n <=? 14) eqn:E2; [lia|].
  unfold varint_size. destruct (n =? 0) eqn:E3; [lia|].
  assert (7 * (k - 1) <= Z.log2 n) by (apply Z.log2_le_pow2; lia). assert (Z.log2 n < 7 * k) by (apply Z.log2_lt_pow2; lia). lia.
Qed.

Lemma oversized_panics c : enc_run c enc_new [OpBeginArray 0; OpValue (EData (zeros (2 ^ 30))); OpEndArray] = Panic.
Proof.
  destruct (blob_written c (2 ^ 30) (6 + 2 ^ 30)) as (D & Hr & Hl).
  - unfold two63. lia.
  - rewrite (big_fleece_size (2 ^ 30) 5); [reflexivity|split; [vm_compute; first [discriminate|reflexivity]|vm_compute; reflexivity]|lia].
  - reflexivity.
  - change [OpBeginArray 0; OpValue (EData (zeros (2 ^ 30))); OpEndArray] with ([OpBeginArray 0; OpValue (EData (zeros (2 ^ 30)))] ++ [OpEndArray]).
    set (ops := [OpBeginArray 0; OpValue (EData (zeros (2 ^ 30)))]) in *. clearbody ops.
    assert (Hcl : end_array c (mk_enc D None [CArr [mkptr 0]] false) = Panic).
    { change (2 ^ 30) with 1073741824 in Hl. apply close_panics; unfold MAX_WIDE, two32; try lia; cbn; lia. }
    assert (Happ : forall ops1 e e1 r1, enc_run c e ops1 = Ret (e1, r1) -> enc_step c e1 OpEndArray = Panic ->
              enc_run c e (ops1 ++ [OpEndArray]) = Panic).
    { clear. induction ops1 as [|o ops1 IH]; intros e e1 r1 H1 H2; cbn [enc_run app] in *.
      - apply ret_inj in H1. injection H1 as <- <-. rewrite H2. reflexivity.
      - destruct (enc_step c e o) as [[e' r']| | |]; try discriminate. cbn [bind fst snd] in *.
        destruct (enc_run c e' ops1) as [[e3 r3]| | |] eqn:E; try discriminate. cbn [bind fst snd] in H1.
        apply ret_inj in H1. injection H1 as <- <-. rewrite (IH _ _ _ E H2). reflexivity. }
    eapply Happ; [exact Hr|exact Hcl].
Qed.
Lemma oversized_wraps c : exists e', enc_run c enc_new [OpBeginArray 0; OpValue (EData (zeros (2 ^ 32 - 6))); OpValue (EF64 0)] =
  Ret (e', [Ok tt; Ok tt; Ok tt]) /\ en_stack e' = [CArr [mkptr 0; mkptr 0]].
Proof.
  destruct (blob_written c (2 ^ 32 - 6) (2 ^ 32)) as (D & Hr & Hl).
  - unfold two63. lia.
  - rewrite (big_fleece_size (2 ^ 32 - 6) 5); [reflexivity|split; [vm_compute; first [discriminate|reflexivity]|vm_compute; reflexivity]|lia].
  - reflexivity.
  - change (2 ^ 32) with two32 in Hl.
    destruct (value_wraps c D [mkptr 0] (EF64 0) (TF64 0)) as (X & Hx); try reflexivity.
    + cbn. unfold two64. lia.
    + rewrite Hl. reflexivity.
    + rewrite Hl. unfold MAX_WIDE. lia.
    + rewrite Hl in Hx. change (two32 - two32) with 0 in Hx.
      eexists. split.
      * apply (enc_run_app2 c [OpBeginArray 0; OpValue (EData (zeros (2 ^ 32 - 6)))] [OpValue (EF64 0)] enc_new _ _ _ [Ok tt] Hr).
        cbn [enc_run enc_step]. rewrite Hx. reflexivity.
      * reflexivity.
Qed.

(* ---------- C49 ---------- *)

Lemma empty_array dbg base : let m := fst (array_empty dbg base) in let v := snd (array_empty dbg base) in
  value_type m v = Ret TyArray /\ as_array m v = Ret (Some v) /\ arr_len m v = Ret 0 /\ arr_is_empty m v = Ret true /\
  arr_elems m v = Ret [] /\ (forall i, 0 < i -> arr_get m v i = Ret None) /\ read_doc m v = Ret (TArr []).
Proof.
  cbn [array_empty static2 fst snd]. do 5 (split; [vm_compute; reflexivity|]). split; [|vm_compute; reflexivity].
  intros i Hi. unfold arr_get. assert (arr_len (mk_env dbg base [TAG_ARRAY; 0] None) (V 0 2) = Ret 0) as -> by (vm_compute; reflexivity).
  cbn [bind]. destruct (0 <? i) eqn:E; [reflexivity|lia].
Qed.
Lemma empty_dict dbg base : let m := fst (dict_empty dbg base) in let v := snd (dict_empty dbg base) in
  value_type m v = Ret TyDict /\ as_dict m v = Ret (Some v) /\ dict_len m v = Ret 0 /\
  dict_elems m v = Ret [] /\ dict_first m v = Ret None /\
  (forall k, dict_get m v k = Ret None) /\ (forall k sk, dict_get_sk m v k sk = Ret None) /\ read_doc m v = Ret (TDict []).
Proof.
  cbn [dict_empty static2 fst snd]. do 5 (split; [vm_compute; reflexivity|]).
  assert (Hk : forall k, dict_get_key (mk_env dbg base [TAG_DICT; 0] None) (V 0 2) k = Ret None) by (intros k; vm_compute; reflexivity).
  split; [|split; [|vm_compute; reflexivity]].
  - intros k. unfold dict_get, encode_key.
    assert (uses_shared_keys (mk_env dbg base [TAG_DICT; 0] None) (V 0 2) = Ret false) as -> by (vm_compute; reflexivity).
    cbn [bind]. apply Hk.
  - intros k sk. unfold dict_get_sk, encode_key. destruct (sk_encode sk k); cbn [bind]; apply Hk.
Qed.
Lemma constants dbg base :
  (let '(m, v) := value_null dbg base in value_type m v = Ret TyNull /\ read_doc m v = Ret TNull) /\
  (let '(m, v) := value_undefined dbg base in value_type m v = Ret TyUndefined /\ read_doc m v = Ret TUndef) /\
  (forall b, let '(m, v) := value_bool dbg base b in
     value_type m v = Ret (if b then TyTrue else TyFalse) /\ to_bool m v = Ret b /\ read_doc m v = Ret (TBool b)).
Proof. split; [|split]; [vm_compute; auto|vm_compute; auto|]. intros [|]; vm_compute; auto. Qed.
Lemma empty_array_get0 dbg base : arr_get (fst (array_empty dbg base)) (snd (array_empty dbg base)) 0 = UB.
Proof. destruct dbg; vm_compute; reflexivity. Qed.

(* ---------- statements used in Properties_Values ---------- *)

Lemma u32_elem c vs i z :
  sort_ok (c_sort c) -> writable vs -> nthZ vs i = Some (EInt U32 z) -> 0 <= z < two32 ->
  reads_element c vs i (fun m x => to_unsigned_int m x = Ret z /\ to_int m x = Ret z).
Proof.
  intros Hs Hw Hi Hz. eapply reads_weaken; [|exact (int_elem c vs i U32 z z Hs Hw Hi (stored_u32 z Hz))].
  cbn. intros m x [H1 H2]. split; [apply H2|apply H1]; unfold two32, two63, two64 in *; lia.
Qed.
Lemma u64_elem c vs i t z :
  sort_ok (c_sort c) -> writable vs -> nthZ vs i = Some (EInt t z) -> t = U64 \/ t = Usize -> 0 <= z < two64 ->
  z <= 2047 \/ z < 256 ^ (8 - (ctz64 z + 7) / 8) ->
  reads_element c vs i (fun m x => to_unsigned_int m x = Ret z).
Proof.
  intros Hs Hw Hi Ht Hz Hc. eapply reads_weaken; [|exact (int_elem c vs i t z z Hs Hw Hi (stored_u64 t z Ht Hz Hc))].
  cbn. intros m x [_ H]. apply H, Hz.
Qed.
Lemma odd_elem c vs i t z :
  sort_ok (c_sort c) -> writable vs -> nthZ vs i = Some (EInt t z) -> t = U64 \/ t = Usize -> 0 <= z < two64 ->
  Z.odd z = true -> reads_element c vs i (fun m x => to_unsigned_int m x = Ret z).
Proof.
  intros Hs Hw Hi Ht Hz Ho. apply (u64_elem c vs i t z Hs Hw Hi Ht Hz). right.
  assert (ctz64 z = 0) as -> by (destruct z as [|[p|p|]|p]; try discriminate Ho; try reflexivity; lia).
  change (8 - (0 + 7) / 8) with 8. change (256 ^ 8) with two64. lia.
Qed.
Lemma u64_lost c : sort_ok (c_sort c) ->
  reads_element c [EInt U64 (2 ^ 40)] 0 (fun m x => to_unsigned_int m x = Ret 0).
Proof.
  intros Hs. refine (unsigned_elem c [EInt U64 (2 ^ 40)] 0 U64 (2 ^ 40) Hs _ eq_refl _ _).
  - split; [|split; [|split]]; [constructor; [vm_compute; intuition congruence|constructor]|constructor; [discriminate|constructor]|vm_compute; first [discriminate|reflexivity]|].
    right. split; [reflexivity|vm_compute; first [discriminate|reflexivity]].
  - auto.
  - reflexivity.
Qed.
Lemma i64_lost c : sort_ok (c_sort c) ->
  reads_element c [EInt I64 65536] 0 (fun m x => to_int m x = Ret 0).
Proof.
  intros Hs. refine (proj1 (signed_elem c [EInt I64 65536] 0 I64 65536 Hs _ eq_refl _)).
  - split; [|split; [|split]]; [constructor; [vm_compute; intuition congruence|constructor]|constructor; [discriminate|constructor]|vm_compute; first [discriminate|reflexivity]|].
    right. split; [reflexivity|vm_compute; first [discriminate|reflexivity]].
  - reflexivity.
Qed.
Lemma signed_read c vs i t z :
  sort_ok (c_sort c) -> writable vs -> nthZ vs i = Some (EInt t z) -> t = I64 \/ t = I32 \/ t = Isize ->
  reads_element c vs i (fun m x => to_int m x = Ret ((z + 32768) mod 65536 - 32768)).
Proof.
  intros Hs Hw Hi Ht. refine (proj1 (signed_elem c vs i t z Hs Hw Hi _)). destruct Ht as [-> | [-> | ->]]; reflexivity.
Qed.
Lemma signed_small c vs i t z :
  sort_ok (c_sort c) -> writable vs -> nthZ vs i = Some (EInt t z) -> t = I64 \/ t = I32 \/ t = Isize ->
  -2048 <= z <= 2047 -> reads_element c vs i (fun m x => to_int m x = Ret z).
Proof.
  intros Hs Hw Hi Ht Hz. pose proof (signed_read c vs i t z Hs Hw Hi Ht) as H. replace ((z + 32768) mod 65536 - 32768) with z in H by lia. exact H.
Qed.
Lemma small_writable t z : wf_enc (EInt t z) ->
  (t = I8 \/ t = U8) \/ (t = I16 \/ t = U16) /\ -2048 <= z <= 2047 -> writable [EInt t z].
Proof.
  intros Hw Ht. assert (Hst : stored_value (EInt t z) = Some (TInt z)).
  { destruct Ht as [Ht|[Ht Hz]]; [apply stored_i8_u8; assumption|]. destruct Ht as [-> | ->]; cbn [stored_value].
    - assert (wrap_i16 z = z) as -> by (unfold wrap_i16, two16; lia). destruct ((-2048 <=? z) && (z <=? 2047)) eqn:E; [reflexivity|lia].
    - destruct (z <=? 2047) eqn:E; [reflexivity|lia]. }
  split; [constructor; [exact Hw|constructor]|]. split; [constructor; [congruence|constructor]|].
  assert (Hsz : to_sized_value (EInt t z) <> None).
  { cbn in Hw. assert (Hz : (t = I8 /\ -128 <= z < 128) \/ (t = U8 /\ 0 <= z < 256) \/ (t = I16 \/ t = U16) /\ -2048 <= z <= 2047).
    { destruct Ht as [[-> | ->]|Ht]; [left|right; left|right; right; exact Ht]; cbn in Hw; split; auto; unfold ity_min, ity_max in Hw; lia. }
    destruct Hz as [[-> Hz]|[[-> Hz]|[[-> | ->] Hz]]]; cbn [to_sized_value]; unfold i16_to_sized, u16_to_sized; 
      repeat (match goal with |- context [if ?b then _ else _] => destruct b eqn:? end); try discriminate; lia. }
  assert (Ho : content [EInt t z] = 0).
  { cbn [content fold_right]. unfold outside. destruct (to_sized_value (EInt t z)); [reflexivity|congruence]. }
  split; [rewrite Ho; vm_compute; first [discriminate|reflexivity]|]. right. split; [reflexivity|]. rewrite Ho. cbn [reach].
  destruct (to_sized_value (EInt t z)); reflexivity.
Qed.
Lemma quiet32_spec b : (is_snan32 b = false -> quiet32 b = b) /\ (is_snan32 b = true -> quiet32 b = b + 2 ^ 22).
Proof. unfold quiet32. split; intros ->; reflexivity. Qed.
Lemma float_writable v : wf_enc v -> (exists b, v = EF64 b \/ v = EF32 b) -> writable [v].
Proof.
  intros Hw (b & Hv). split; [constructor; [exact Hw|constructor]|].
  assert (Hst : stored_value v <> None) by (destruct Hv as [-> | ->]; discriminate).
  split; [constructor; [exact Hst|constructor]|].
  assert (Ho : 0 <= content [v] <= 12).
  { cbn [content fold_right]. unfold outside. destruct (to_sized_value v); [lia|].
    destruct Hv as [-> | ->]; cbn [fleece_size]; lia. }
  unfold flat_ok. change (lenZ [v]) with 1. unfold MAX_WIDE, MAX_NARROW. split; [lia|]. right. split.
  - destruct Hv as [-> | ->]; reflexivity.
  - change (header 1) with 2. cbn [reach]. destruct (to_sized_value v); [reflexivity|]. unfold MAX_NARROW. rewrite andb_true_r. lia.
Qed.
Lemma oversized_reached c : exists e,
  enc_run c enc_new [OpBeginArray 0; OpValue (EData (zeros (2 ^ 30)))] = Ret (e, [Ok tt; Ok tt]) /\
  en_stack e <> [] /\ lenZ (en_out e) mod 2 = 0 /\ MAX_WIDE < lenZ (en_out e) < two32.
Proof.
  destruct (blob_written c (2 ^ 30) (6 + 2 ^ 30)) as (D & Hr & Hl).
  - unfold two63. lia.
  - rewrite (big_fleece_size (2 ^ 30) 5); [reflexivity|split; [vm_compute; first [discriminate|reflexivity]|vm_compute; reflexivity]|lia].
  - reflexivity.
  - eexists. split; [exact Hr|]. split; [discriminate|]. cbn [en_out]. rewrite Hl. split; [reflexivity|]. unfold MAX_WIDE, two32. lia.
Qed.
(** A test for [writable], for the examples. *)
Definition writableb (vs : list encodable) : bool :=
  forallb wf_encb vs && forallb (fun v => match stored_value v with Some _ => true | None => false end) vs &&
  (content vs + 4 * lenZ vs + 22 <=? MAX_WIDE) && forallb no_short_text vs &&
  reach (content vs + header (lenZ vs)) vs.
Lemma writableb_ok vs : writableb vs = true -> writable vs.
Proof.
  unfold writableb. rewrite !andb_true_iff. intros [[[[H1 H2] H3] H4] H5]. split; [|split].
  - apply Forall_forall. intros v Hv. apply wf_encb_ok. exact (proj1 (forallb_forall _ _) H1 v Hv).
  - apply Forall_forall. intros v Hv. pose proof (proj1 (forallb_forall _ _) H2 v Hv). cbn in H. destruct (stored_value v); congruence.
  - split; [lia|]. right. split; [exact H4|exact H5].
Qed.

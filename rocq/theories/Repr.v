(** How single (non-collection) values are represented, and that the encoder's bytes for a
    value represent it. *)
From Verif Require Import Prelude Lib Varint VarintProofs Utf8 Float FloatProofs SharedKeys
  Decode Read Encodable Holds.
From Coq Require Import ZifyBool ZifyNat ZifyN.
Ltac Zify.zify_post_hook ::= Z.div_mod_to_equations.

Definition scalar_ty (t : vtype) : bool :=
  match t with TyArray | TyDict | TyPointer => false | _ => true end.

(** The bytes [write_string] produces in a narrow context. *)
Definition str_bytes (tag : Z) (s : list Z) : list Z :=
  if lenZ s =? 0 then [tag; 0]
  else if lenZ s =? 1 then [tag + 1; nth 0 s 0]
  else if lenZ s <=? 14 then (tag + lenZ s) :: s
  else (tag + 15) :: varint_write (lenZ s) ++ s.

(** Bytes, of which an integer with sign is a zero in one byte, and a text is valid. *)
Definition made (bs : list Z) : Prop :=
  all_bytes bs /\
  match bs with
  | [] => False
  | b :: _ => (16 <= b < 24 -> bs = [16; 0]) /\
      (64 <= b < 80 -> exists s, bs = str_bytes 64 s /\ lenZ s < two63 /\ utf8_valid s = true)
  end.
(** [bs] is a complete representation of the scalar [t]: wherever the bytes are, reading a
    value there gives [t], and the value's size is that of [bs]. *)
Definition repr (t : tree) (bs : list Z) : Prop :=
  2 <= lenZ bs /\ made bs /\
  forall e p len, holds (e_data e) p bs -> lenZ bs <= len ->
    (forall f, read_tree (S f) e (V p len) = Ret t) /\
    required_size e (V p len) = Ret (lenZ bs) /\
    (exists ty, value_type e (V p len) = Ret ty /\ scalar_ty ty = true).

Lemma repr_len t bs : repr t bs -> 2 <= lenZ bs.
Proof. intros [H _]; exact H. Qed.

Lemma V_eq p q l m : p = q -> l = m -> V p l = V q m.
Proof. congruence. Qed.

(* ---------- byte facts ---------- *)

Lemma byte_lor_tag tag n : tag mod 16 = 0 -> 0 <= tag -> 0 <= n < 16 -> Z.lor tag n = tag + n.
Proof.
  intros Ht H0 Hn. rewrite Z.lor_comm. replace tag with ((tag / 16) * 2 ^ 4) by lia.
  rewrite lor_add by lia. lia.
Qed.
Lemma byte_land15 tag n : tag mod 16 = 0 -> 0 <= n < 16 -> Z.land (tag + n) 15 = n.
Proof. intros Ht Hn. rewrite land_15. lia. Qed.

Definition range_list (n : nat) : list Z := map Z.of_nat (seq 0 n).
Lemma range_sweep (P : Z -> bool) n :
  forallb P (range_list n) = true -> forall z, 0 <= z < Z.of_nat n -> P z = true.
Proof.
  intros H z Hz. rewrite forallb_forall in H. apply H. unfold range_list.
  apply in_map_iff. exists (Z.to_nat z). split; [lia|apply in_seq; lia].
Qed.

Lemma vtype_eqb_eq a b : vtype_eqb a b = true <-> a = b.
Proof. destruct a, b; cbn; split; congruence || discriminate || reflexivity. Qed.

Lemma type_string n : 0 <= n < 16 -> type_of_byte (64 + n) = TyString.
Proof.
  intros H. apply vtype_eqb_eq.
  apply (range_sweep (fun n => vtype_eqb (type_of_byte (64 + n)) TyString) 16); [reflexivity|lia].
Qed.
Lemma type_data n : 0 <= n < 16 -> type_of_byte (80 + n) = TyData.
Proof.
  intros H. apply vtype_eqb_eq.
  apply (range_sweep (fun n => vtype_eqb (type_of_byte (80 + n)) TyData) 16); [reflexivity|lia].
Qed.
Lemma type_short n : 0 <= n < 16 -> type_of_byte n = TyShort.
Proof.
  intros H. apply vtype_eqb_eq.
  apply (range_sweep (fun n => vtype_eqb (type_of_byte n) TyShort) 16); [reflexivity|lia].
Qed.
Lemma type_uint n : 0 <= n < 8 -> type_of_byte (24 + n) = TyUnsignedInt.
Proof.
  intros H. apply vtype_eqb_eq.
  apply (range_sweep (fun n => vtype_eqb (type_of_byte (24 + n)) TyUnsignedInt) 8); [reflexivity|lia].
Qed.
Lemma type_array n : 0 <= n < 16 -> type_of_byte (96 + n) = TyArray.
Proof.
  intros H. apply vtype_eqb_eq.
  apply (range_sweep (fun n => vtype_eqb (type_of_byte (96 + n)) TyArray) 16); [reflexivity|lia].
Qed.
Lemma type_dict n : 0 <= n < 16 -> type_of_byte (112 + n) = TyDict.
Proof.
  intros H. apply vtype_eqb_eq.
  apply (range_sweep (fun n => vtype_eqb (type_of_byte (112 + n)) TyDict) 16); [reflexivity|lia].
Qed.
Lemma type_pointer n : 0 <= n < 128 -> type_of_byte (128 + n) = TyPointer.
Proof.
  intros H. apply vtype_eqb_eq.
  apply (range_sweep (fun n => vtype_eqb (type_of_byte (128 + n)) TyPointer) 128); [reflexivity|lia].
Qed.

(* ---------- constants ---------- *)

Ltac repr_start :=
  split; [rewrite ?lenZ_cons, ?lenZ_nil; lia|split].

Lemma repr_const b0 t ty :
  is_byte b0 -> type_of_byte b0 = ty ->
  match ty with
  | TyNull => t = TNull | TyUndefined => t = TUndef
  | TyTrue => t = TBool true | TyFalse => t = TBool false | _ => False
  end ->
  repr t [b0; 0].
Proof.
  intros Hb Hty Ht. split; [cbn; lia|]. split.
  { split; [bytes_tac|]. clear - Hb Hty Ht. unfold is_byte in Hb.
    assert (E : implb (((16 <=? b0) && (b0 <? 24)) || ((64 <=? b0) && (b0 <? 80)))
      (match type_of_byte b0 with TyNull | TyUndefined | TyTrue | TyFalse => false | _ => true end) = true)
      by (apply (range_sweep (fun b0 => implb (((16 <=? b0) && (b0 <? 24)) || ((64 <=? b0) && (b0 <? 80)))
      (match type_of_byte b0 with TyNull | TyUndefined | TyTrue | TyFalse => false | _ => true end)) 256); [vm_compute; reflexivity|lia]).
    rewrite Hty in E. assert (N : match ty with TyNull | TyUndefined | TyTrue | TyFalse => false | _ => true end = false) by (destruct ty; try contradiction; reflexivity).
    rewrite N in E. destruct (((16 <=? b0) && (b0 <? 24)) || ((64 <=? b0) && (b0 <? 80))) eqn:X; [discriminate|]. split; intros; exfalso; lia. }
  intros e p len H Hl. change (lenZ [b0; 0]) with 2 in *.
  assert (Hv : value_type e (V p len) = Ret ty)
    by (rewrite (holds_type _ _ _ _ _ H) by lia; rewrite Hty; reflexivity).
  split; [|split].
  - intros f. cbn [read_tree]. rewrite Hv; cbn [bind].
    destruct ty; try contradiction; subst t; try reflexivity;
      unfold to_bool; rewrite Hv; reflexivity.
  - unfold required_size. rewrite Hv; cbn [bind]. destruct ty; try contradiction; reflexivity.
  - exists ty. split; [exact Hv|]. destruct ty; try contradiction; reflexivity.
Qed.

(* ---------- short integers ---------- *)

Lemma short_round z : -2048 <= z <= 2047 ->
  short_of_12bit (wrap_u16 z mod 4096) = z.
Proof.
  intros H.
  assert (Hs : forall k, 0 <= k < 4096 ->
     (short_of_12bit (wrap_u16 (k - 2048) mod 4096) =? k - 2048) = true).
  { apply (range_sweep (fun k => short_of_12bit (wrap_u16 (k - 2048) mod 4096) =? k - 2048) 4096).
    vm_compute. reflexivity. }
  specialize (Hs (z + 2048)). replace (z + 2048 - 2048) with z in Hs by lia. lia.
Qed.

(** The two bytes of a 12-bit short. *)
Definition short_bytes (z : Z) : list Z := [(wrap_u16 z / 256) mod 16; wrap_u16 z mod 256].

Lemma repr_short z : -2048 <= z <= 2047 -> repr (TInt z) (short_bytes z).
Proof.
  intros Hz. unfold short_bytes.
  assert (Hu : 0 <= wrap_u16 z < 65536) by (unfold wrap_u16, two16; lia).
  split; [cbn; lia|]. split.
  { split; [bytes_tac|]. split; intros; exfalso; lia. }
  set (b0 := (wrap_u16 z / 256) mod 16) in *. set (b1 := wrap_u16 z mod 256) in *.
  intros e p len H Hl. change (lenZ [b0; b1]) with 2 in *.
  assert (Hv : value_type e (V p len) = Ret TyShort).
  { rewrite (holds_type _ _ _ _ _ H) by lia. rewrite type_short by lia. reflexivity. }
  assert (Hsh : get_short e (V p len) = Ret (wrap_u16 z mod 4096)).
  { rewrite (holds_short _ _ _ _ _ _ H) by lia. f_equal. rewrite land_15. lia. }
  split; [|split].
  - intros f. cbn [read_tree]. rewrite Hv; cbn [bind]. unfold to_int. rewrite Hv; cbn [bind].
    rewrite Hsh; cbn [bind]. rewrite short_round by lia. reflexivity.
  - unfold required_size. rewrite Hv; reflexivity.
  - exists TyShort; split; [exact Hv|reflexivity].
Qed.

(* ---------- unsigned integers of 1 to 8 bytes ---------- *)

Lemma wrap_i64_u64 z : 0 <= z < two64 -> wrap_u64 (wrap_i64 z) = z.
Proof. unfold wrap_u64, wrap_i64, two64, two63. lia. Qed.

Lemma repr_uint k z :
  (1 <= k <= 8)%nat -> 0 <= z < 256 ^ Z.of_nat k ->
  repr (TInt z) ((24 + (Z.of_nat k - 1)) :: le_bytes k z).
Proof.
  intros Hk Hz. set (b0 := 24 + (Z.of_nat k - 1)).
  assert (Hl64 : 256 ^ Z.of_nat k <= two64).
  { change two64 with (256 ^ 8). apply Z.pow_le_mono_r; lia. }
  split; [rewrite lenZ_cons, le_bytes_lenZ; lia|]. split.
  { split; [constructor; [unfold is_byte; lia|apply le_bytes_bytes]|]. split; intros; exfalso; lia. }
  intros e p len H Hl. rewrite lenZ_cons, le_bytes_lenZ in *.
  assert (Hv : value_type e (V p len) = Ret TyUnsignedInt).
  { rewrite (holds_type _ _ _ _ _ H) by lia. unfold b0. rewrite type_uint by lia. reflexivity. }
  assert (Hb0 : vbyte e (V p len) 0 = Ret b0) by (eapply holds_vbyte0; [exact H|lia]).
  assert (Hc : Z.land b0 7 = Z.of_nat k - 1) by (rewrite land_7; lia).
  apply holds_cons in H as [_ H1].
  split; [|split].
  - intros f. cbn [read_tree]. rewrite Hv; cbn [bind].
    unfold to_unsigned_int, to_int. rewrite Hv; cbn [bind].
    unfold int_payload. rewrite Hb0; cbn [bind v_len v_pos]. rewrite Hc.
    destruct (len <? 1) eqn:E; [lia|].
    rewrite (holds_raw_bytes _ _ _ _ H1) by (rewrite le_bytes_lenZ; lia). cbn [bind].
    rewrite le_val_le_bytes by lia. rewrite Z.mod_small by lia.
    rewrite wrap_i64_u64 by lia. reflexivity.
  - unfold required_size. rewrite Hv; cbn [bind]. rewrite Hb0; cbn [bind]. rewrite Hc. f_equal; lia.
  - exists TyUnsignedInt; split; [exact Hv|reflexivity].
Qed.

(* ---------- floats ---------- *)

Lemma repr_f64 bits : 0 <= bits < two64 -> repr (TF64 bits) (40 :: 0 :: le_bytes 8 bits).
Proof.
  intros Hb. split; [rewrite !lenZ_cons, le_bytes_lenZ; lia|]. split.
  { split; [constructor; [unfold is_byte; lia|]; constructor; [unfold is_byte; lia|apply le_bytes_bytes]|]. split; intros; exfalso; lia. }
  intros e p len H Hl. rewrite !lenZ_cons, le_bytes_lenZ in *.
  assert (Hv : value_type e (V p len) = Ret TyDouble64)
    by (rewrite (holds_type _ _ _ _ _ H) by lia; reflexivity).
  apply holds_cons in H as [_ H1]. apply holds_cons in H1 as [_ H2].
  split; [|split].
  - intros f. cbn [read_tree]. rewrite Hv; cbn [bind]. unfold to_double. rewrite Hv; cbn [bind].
    unfold float_payload, vslice; cbn [v_len v_pos].
    replace ((2 <=? 10) && (10 <=? len)) with true by lia. cbn [bind].
    unfold slice_content; cbn [v_len v_pos].
    replace (p + 2) with (p + 1 + 1) by lia.
    rewrite (holds_raw_bytes _ _ _ _ H2) by (rewrite le_bytes_lenZ; lia). cbn [bind].
    rewrite le_val_le_bytes by lia. rewrite Z.mod_small by (change (256 ^ Z.of_nat 8) with two64; lia).
    reflexivity.
  - unfold required_size. rewrite Hv; cbn [bind]. f_equal; lia.
  - exists TyDouble64; split; [exact Hv|reflexivity].
Qed.

Lemma repr_f32 bits :
  0 <= bits < two32 ->
  repr (TF32 (quiet32 bits)) (32 :: 0 :: le_bytes 4 bits).
Proof.
  intros Hb. split; [rewrite !lenZ_cons, le_bytes_lenZ; lia|]. split.
  { split; [constructor; [unfold is_byte; lia|]; constructor; [unfold is_byte; lia|apply le_bytes_bytes]|]. split; intros; exfalso; lia. }
  intros e p len H Hl. rewrite !lenZ_cons, le_bytes_lenZ in *.
  assert (Hv : value_type e (V p len) = Ret TyFloat)
    by (rewrite (holds_type _ _ _ _ _ H) by lia; reflexivity).
  apply holds_cons in H as [_ H1]. apply holds_cons in H1 as [_ H2].
  split; [|split].
  - intros f. cbn [read_tree]. rewrite Hv; cbn [bind]. unfold to_float, to_double. rewrite Hv; cbn [bind].
    unfold float_payload, vslice; cbn [v_len v_pos].
    replace ((2 <=? 6) && (6 <=? len)) with true by lia. cbn [bind].
    unfold slice_content; cbn [v_len v_pos].
    replace (p + 2) with (p + 1 + 1) by lia.
    rewrite (holds_raw_bytes _ _ _ _ H2) by (rewrite le_bytes_lenZ; lia). cbn [bind].
    rewrite le_val_le_bytes by lia. rewrite Z.mod_small by (change (256 ^ Z.of_nat 4) with two32; lia).
    rewrite f32_via_f64 by lia. reflexivity.
  - unfold required_size. rewrite Hv; cbn [bind]. f_equal; lia.
  - exists TyFloat; split; [exact Hv|reflexivity].
Qed.

(* ---------- strings and data ---------- *)

Lemma str_bytes_len tag s : lenZ s < two64 -> lenZ (str_bytes tag s) = bytes_fleece_size (lenZ s).
Proof.
  intros Hs. pose proof (lenZ_nonneg s). unfold str_bytes, bytes_fleece_size.
  destruct (lenZ s =? 0) eqn:E0; [destruct (lenZ s <=? 1) eqn:E; [reflexivity|lia]|].
  destruct (lenZ s =? 1) eqn:E1; [destruct (lenZ s <=? 1) eqn:E; [reflexivity|lia]|].
  destruct (lenZ s <=? 1) eqn:E; [lia|].
  destruct (lenZ s <=? 14) eqn:E14; rewrite lenZ_cons; [lia|].
  rewrite lenZ_app, varint_size_len by lia. lia.
Qed.

Lemma str_bytes_bytes tag s : 0 <= tag <= 240 -> all_bytes s -> all_bytes (str_bytes tag s).
Proof.
  intros Ht Hs. pose proof (lenZ_nonneg s). unfold str_bytes.
  destruct (lenZ s =? 0) eqn:E0; [bytes_tac|].
  destruct (lenZ s =? 1) eqn:E1.
  { destruct s as [|x s]; [cbn in E1; discriminate|]. inversion Hs; subst.
    cbn [nth]; bytes_tac. }
  destruct (lenZ s <=? 14) eqn:E14; (constructor; [unfold is_byte; lia|]); [exact Hs|].
  apply all_bytes_app; split; [apply varint_write_bytes; lia|exact Hs].
Qed.

Lemma get_data_str e p len tag s :
  tag mod 16 = 0 -> 0 <= tag -> lenZ s < two63 ->
  holds (e_data e) p (str_bytes tag s) -> lenZ (str_bytes tag s) <= len ->
  exists k, get_data e (V p len) = Ret (V (p + k) (lenZ s)) /\ holds (e_data e) (p + k) s.
Proof.
  intros Ht Ht0 Hs H Hl. pose proof (lenZ_nonneg s) as Hn. unfold str_bytes in *.
  unfold get_data; cbn [v_len v_pos]. unfold two63 in *.
  destruct (lenZ s =? 0) eqn:E0.
  { change (lenZ [tag; 0]) with 2 in Hl. destruct (len <? 2) eqn:E; [lia|].
    rewrite (holds_vbyte0 _ _ _ _ _ H) by lia. cbn [bind].
    replace (Z.land tag 15) with 0 by (rewrite land_15; lia). cbn [Z.eqb].
    unfold vslice; cbn [v_len v_pos]. replace ((1 <=? 1 + 0) && (1 + 0 <=? len)) with true by lia.
    exists 1. split; [apply f_equal, V_eq; lia|].
    rewrite (lenZ_0 s) by lia. apply holds_cons in H as [_ H].
    apply (holds_app_l _ _ [] [0]); exact H. }
  destruct (lenZ s =? 1) eqn:E1.
  { change (lenZ [tag + 1; nth 0 s 0]) with 2 in Hl. destruct (len <? 2) eqn:E; [lia|].
    rewrite (holds_vbyte0 _ _ _ _ _ H) by lia. cbn [bind].
    rewrite byte_land15 by lia. cbn [Z.eqb].
    unfold vslice; cbn [v_len v_pos]. replace ((1 <=? 1 + 1) && (1 + 1 <=? len)) with true by lia.
    exists 1. split; [apply f_equal, V_eq; lia|].
    apply holds_cons in H as [_ H].
    destruct s as [|x [|y s]]; [discriminate|exact H|].
    rewrite !lenZ_cons in E1. pose proof (lenZ_nonneg s). lia. }
  destruct (lenZ s <=? 14) eqn:E14.
  { rewrite lenZ_cons in Hl. destruct (len <? 2) eqn:E; [lia|].
    rewrite (holds_vbyte0 _ _ _ _ _ H) by lia. cbn [bind].
    rewrite byte_land15 by lia. destruct (lenZ s =? 15) eqn:E15; [lia|].
    unfold vslice; cbn [v_len v_pos].
    replace ((1 <=? 1 + lenZ s) && (1 + lenZ s <=? len)) with true by lia.
    exists 1. split; [apply f_equal, V_eq; lia|].
    apply holds_cons in H as [_ H]. exact H. }
  assert (Hs64 : 0 <= lenZ s < two64) by (unfold two64; lia).
  pose proof (varint_write_len (lenZ s) Hs64) as Hvl.
  rewrite lenZ_cons, lenZ_app in Hl. destruct (len <? 2) eqn:E; [lia|].
  rewrite (holds_vbyte0 _ _ _ _ _ H) by lia. cbn [bind].
  rewrite byte_land15 by lia. cbn [Z.eqb Pos.eqb].
  apply holds_cons in H as [_ H].
  rewrite (holds_varint e p len 1 (lenZ s)); [|exact Hs64|lia|eapply holds_app_l; exact H|lia].
  cbn [bind]. destruct (lenZ (varint_write (lenZ s)) =? 0) eqn:Er; [lia|].
  unfold usize_add. unfold two64 in *.
  destruct (1 + lenZ (varint_write (lenZ s)) + lenZ s <? 18446744073709551616) eqn:Eo; [|lia].
  cbn [bind]. unfold vslice; cbn [v_len v_pos].
  match goal with |- context [if ?b then _ else _] => replace b with true by lia end.
  exists (1 + lenZ (varint_write (lenZ s))). split; [apply f_equal, V_eq; lia|].
  apply holds_app_r in H. rewrite Z.add_assoc. exact H.
Qed.

Lemma str_bytes_head tag s : lenZ s < two64 -> exists n r, 0 <= n < 16 /\ str_bytes tag s = (tag + n) :: r.
Proof.
  intros Hs. pose proof (lenZ_nonneg s). unfold str_bytes.
  destruct (lenZ s =? 0); [exists 0; eexists; split; [lia|]; rewrite Z.add_0_r; reflexivity|].
  destruct (lenZ s =? 1); [exists 1; eexists; split; [lia|reflexivity]|].
  destruct (lenZ s <=? 14) eqn:E; [exists (lenZ s)|exists 15]; eexists; (split; [lia|reflexivity]).
Qed.

Lemma str_bytes_len2 tag s : lenZ s < two64 -> 2 <= lenZ (str_bytes tag s).
Proof.
  intros H. rewrite str_bytes_len by lia. unfold bytes_fleece_size. pose proof (lenZ_nonneg s).
  unfold varint_size. assert (0 <= Z.log2 (lenZ s)) by apply Z.log2_nonneg.
  destruct (lenZ s <=? 1) eqn:E1; [lia|]. destruct (lenZ s <=? 14) eqn:E2; [lia|].
  destruct (lenZ s =? 0) eqn:E3; lia.
Qed.

Lemma str_repr_common e p len tag s ty :
  (tag = 64 /\ ty = TyString) \/ (tag = 80 /\ ty = TyData) ->
  lenZ s < two63 ->
  holds (e_data e) p (str_bytes tag s) -> lenZ (str_bytes tag s) <= len ->
  value_type e (V p len) = Ret ty /\
  (exists d, get_data e (V p len) = Ret d /\ slice_content e d = Ret s) /\
  required_size e (V p len) = Ret (lenZ (str_bytes tag s)).
Proof.
  intros Htag Hs H Hl.
  assert (Hs64 : lenZ s < two64) by (unfold two63, two64 in *; lia).
  pose proof (str_bytes_len2 tag s Hs64) as H2.
  destruct (str_bytes_head tag s Hs64) as (n & r & Hn & Hh).
  assert (Hv : value_type e (V p len) = Ret ty).
  { rewrite Hh in H. rewrite (holds_type _ _ _ _ _ H) by lia.
    destruct Htag as [[-> ->]|[-> ->]]; [rewrite type_string by lia|rewrite type_data by lia]; reflexivity. }
  destruct (get_data_str e p len tag s) as (k & Hg & Hk);
    [destruct Htag as [[-> ->]|[-> ->]]; reflexivity|lia|lia|exact H|exact Hl|].
  split; [exact Hv|]. split.
  - exists (V (p + k) (lenZ s)). split; [exact Hg|].
    unfold slice_content; cbn [v_pos v_len]. apply holds_raw_bytes; [exact Hk|reflexivity].
  - unfold required_size. rewrite Hv; cbn [bind].
    rewrite str_bytes_len by exact Hs64. unfold bytes_fleece_size.
    destruct Htag as [[-> ->]|[-> ->]]; rewrite Hg; cbn [bind v_len]; reflexivity.
Qed.

Lemma repr_str s :
  lenZ s < two63 -> all_bytes s -> utf8_valid s = true -> repr (TStr s) (str_bytes 64 s).
Proof.
  intros Hs Hb Hu. assert (Hs64 : lenZ s < two64) by (unfold two63, two64 in *; lia).
  split; [apply str_bytes_len2; exact Hs64|]. split.
  { split; [apply str_bytes_bytes; [lia|exact Hb]|]. destruct (str_bytes_head 64 s Hs64) as (n & r & Hn & E). rewrite E.
    split; [intros; exfalso; lia|]. intros _. exists s. split; [symmetry; exact E|]. split; assumption. }
  intros e p len H Hl.
  destruct (str_repr_common e p len 64 s TyString) as (Hv & (d & Hg & Hc) & Hr); auto.
  split; [|split].
  - intros f. cbn [read_tree]. rewrite Hv; cbn [bind]. unfold to_str. rewrite Hv; cbn [bind].
    rewrite Hg; cbn [bind]. rewrite Hc; cbn [bind]. rewrite Hu. reflexivity.
  - exact Hr.
  - exists TyString; split; [exact Hv|reflexivity].
Qed.

Lemma repr_data s : lenZ s < two63 -> all_bytes s -> repr (TData s) (str_bytes 80 s).
Proof.
  intros Hs Hb. assert (Hs64 : lenZ s < two64) by (unfold two63, two64 in *; lia).
  split; [apply str_bytes_len2; exact Hs64|]. split.
  { split; [apply str_bytes_bytes; [lia|exact Hb]|]. destruct (str_bytes_head 80 s Hs64) as (n & r & Hn & ->). split; intros; exfalso; lia. }
  intros e p len H Hl.
  destruct (str_repr_common e p len 80 s TyData) as (Hv & (d & Hg & Hc) & Hr); auto.
  split; [|split].
  - intros f. cbn [read_tree]. rewrite Hv; cbn [bind]. unfold to_data. rewrite Hv; cbn [bind].
    rewrite Hg; cbn [bind]. rewrite Hc; cbn [bind]. reflexivity.
  - exact Hr.
  - exists TyData; split; [exact Hv|reflexivity].
Qed.

(** Keys: what [to_str] and the type give for a stored string. *)
Lemma repr_str_type s bs e p len :
  repr (TStr s) bs -> holds (e_data e) p bs -> lenZ bs <= len ->
  value_type e (V p len) = Ret TyString /\ to_str e (V p len) = Ret s.
Proof.
  intros (Hl2 & _ & Hr) H Hl. destruct (Hr e p len H Hl) as (Ht & _ & ty & Hv & Hsc).
  specialize (Ht O). cbn [read_tree] in Ht. rewrite Hv in *; cbn [bind] in Ht.
  destruct ty; try discriminate Hsc; try discriminate Ht;
    try (match type of Ht with bind ?m _ = _ => destruct m; cbn [bind] in Ht; discriminate Ht end).
  destruct (to_str e (V p len)) as [x| | |]; cbn [bind] in Ht; try discriminate Ht.
  injection Ht as ->. split; reflexivity.
Qed.

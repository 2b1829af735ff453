(** What the encoder writes for headers and slots. *)
From Verif Require Import Prelude Lib Varint VarintProofs Utf8 Float SharedKeys
  Decode Read Encodable Encoder BuilderSpec Holds Repr EncodableProofs Stored StoredRead.
From Coq Require Import ZifyBool ZifyNat ZifyN Sorted.
Ltac Zify.zify_post_hook ::= Z.div_mod_to_equations.

(* ---------- pointers as SizedValues ---------- *)

Definition mkptr (off : Z) : sized := be_bytes 4 (off + 2147483648).

Lemma lor128 b : 0 <= b < 128 -> Z.lor b 128 = b + 128.
Proof. intros H. change 128 with (1 * 2 ^ 7). rewrite lor_add by lia. lia. Qed.
Lemma lxor128 b : 0 <= b < 128 -> Z.lxor (b + 128) 128 = b.
Proof.
  intros H. assert (E : (Z.lxor (b + 128) 128 =? b) = true); [|lia].
  apply (range_sweep (fun b => Z.lxor (b + 128) 128 =? b) 128); [reflexivity|lia].
Qed.

Lemma mkptr_bytes off : 0 <= off <= MAX_WIDE ->
  mkptr off = [off / 16777216 + 128; (off / 65536) mod 256; (off / 256) mod 256; off mod 256].
Proof.
  unfold MAX_WIDE, mkptr. intros H. rewrite be4 by lia. repeat (apply f_equal2; [lia|]). reflexivity.
Qed.
Lemma new_pointer_ok off : 0 <= off <= MAX_WIDE -> new_pointer off = Some (mkptr off).
Proof.
  intros H. rewrite mkptr_bytes by exact H. unfold new_pointer. destruct (MAX_WIDE <? off) eqn:E; [lia|].
  unfold MAX_WIDE in H. rewrite be4 by lia. unfold TAG_POINTER. rewrite lor128 by lia. reflexivity.
Qed.
Lemma new_pointer_Some off s : 0 <= off -> new_pointer off = Some s -> off <= MAX_WIDE /\ s = mkptr off.
Proof.
  intros H0 H. assert (Hl : off <= MAX_WIDE)
    by (unfold new_pointer in H; destruct (MAX_WIDE <? off) eqn:E; [discriminate|lia]).
  split; [exact Hl|]. rewrite new_pointer_ok in H by lia. congruence.
Qed.
Lemma pointer_offset_mkptr off : 0 <= off <= MAX_WIDE -> pointer_offset (mkptr off) = off.
Proof.
  intros H. rewrite mkptr_bytes by exact H. unfold MAX_WIDE in H. unfold pointer_offset, TAG_POINTER.
  rewrite lxor128 by lia. unfold be_val; cbn [rev app le_val]. lia.
Qed.
Lemma is_ptr_mkptr off : 0 <= off <= MAX_WIDE -> is_ptr (mkptr off) = true.
Proof.
  intros H. rewrite mkptr_bytes by exact H. unfold MAX_WIDE in H. unfold is_ptr, sized_type. cbn [nth].
  rewrite Z.add_comm, type_pointer by lia. reflexivity.
Qed.

(* ---------- well-formed slot values ---------- *)

(** A slot value the encoder keeps on its stack while the output is [n] bytes long. *)
Definition swf (n : Z) (s : sized) : Prop :=
  (exists b0 b1, s = [b0; b1; 0; 0] /\ scalar_ty (type_of_byte b0) = true) \/
  (exists off, s = mkptr off /\ 0 <= off <= MAX_WIDE /\ off mod 2 = 0 /\ off < n).

Lemma repr_scalar_byte t b0 b1 : repr t [b0; b1] -> scalar_ty (type_of_byte b0) = true.
Proof.
  intros (_ & _ & Hr).
  assert (Hh : holds [b0; b1] 0 [b0; b1]) by (exists [], []; split; reflexivity).
  destruct (Hr (mk_env false 0 [b0; b1] None) 0 2 Hh) as (_ & _ & ty & Ht & Hs); [cbn; lia|].
  rewrite (holds_type (mk_env false 0 [b0; b1] None) _ _ b0 [b1] Hh) in Ht by lia. injection Ht as <-. exact Hs.
Qed.
Lemma scalar_not_ptr b0 b1 : scalar_ty (type_of_byte b0) = true -> is_ptr [b0; b1; 0; 0] = false.
Proof. unfold is_ptr, sized_type; cbn [nth]. destruct (type_of_byte b0); cbn; congruence. Qed.

Definition fix1 (q : Z) (s : sized) : sized :=
  if is_ptr s then mkptr (q - pointer_offset s) else s.
Definition slot_bytes (wide : bool) (s : sized) : list Z :=
  if is_ptr s then ptr_bytes wide (pointer_offset s) else if wide then s else firstn 2 s.

(** Does the slot value [s], written at position [q], survive in a collection of this width? *)
Definition slot_fits (wide : bool) (q : Z) (s : sized) : bool :=
  wide || (if is_ptr s then q - pointer_offset s <=? MAX_NARROW else Z.land (nth 0 s 0) 64 =? 0).

Lemma land_bf b : is_byte b -> Z.land b 64 = 0 -> Z.land b 191 = b.
Proof.
  intros Hb H. assert (E : ((negb (Z.land b 64 =? 0)) || (Z.land b 191 =? b))%bool = true).
  { apply (byte_sweep (fun b => ((negb (Z.land b 64 =? 0)) || (Z.land b 191 =? b))%bool)); [reflexivity|exact Hb]. }
  rewrite H in E. cbn in E. lia.
Qed.

(** Bytes of an enc state with longer output. *)
Lemma pad_even_even l : lenZ l mod 2 = 0 -> pad_even l = l.
Proof. intros H. unfold pad_even. destruct (lenZ l mod 2 =? 0) eqn:E; [reflexivity|lia]. Qed.
Lemma pad_even_app l m : lenZ l mod 2 = 0 -> pad_even (l ++ m) = l ++ pad_even m.
Proof.
  intros H. unfold pad_even. rewrite lenZ_app.
  destruct ((lenZ l + lenZ m) mod 2 =? 0) eqn:E, (lenZ m mod 2 =? 0) eqn:E2; try lia; [reflexivity|].
  rewrite app_assoc. reflexivity.
Qed.
Lemma pad_even_len l : lenZ (pad_even l) = lenZ l + lenZ l mod 2.
Proof.
  unfold pad_even. destruct (lenZ l mod 2 =? 0) eqn:E; [lia|].
  rewrite lenZ_app, lenZ_cons, lenZ_nil. lia.
Qed.

Lemma wrap_u32_id z : 0 <= z < two32 -> wrap_u32 z = z.
Proof. unfold wrap_u32. intros H. apply Z.mod_small; exact H. Qed.

(** Writing a slot. *)
Lemma write_ptr wide off : 0 <= off <= MAX_WIDE -> (wide = true \/ off <= MAX_NARROW) ->
  write_sized (mkptr off) (width_of wide) wide = Ret (Some (ptr_bytes wide off)) /\
  sized_fleece_size (mkptr off) <= width_of wide /\
  (wide = false -> sized_fleece_size (mkptr off) = 2).
Proof.
  intros H Hw. pose proof (is_ptr_mkptr off H) as Hp. unfold is_ptr in Hp.
  apply vtype_eqb_eq in Hp. unfold write_sized, sized_fleece_size.
  rewrite Hp, pointer_offset_mkptr by exact H. unfold MAX_WIDE, MAX_NARROW in *.
  destruct wide; cbn [width_of].
  - rewrite orb_true_r. cbn [Z.ltb Z.compare Pos.compare Pos.compare_cont].
    split; [|split; [destruct (16383 <? off); lia|discriminate]].
    rewrite be4 by lia. unfold TAG_POINTER, ptr_bytes. rewrite lor128 by lia. rewrite be4 by lia.
    apply f_equal, f_equal. repeat (apply f_equal2; [lia|]). reflexivity.
  - destruct Hw as [Hw|Hw]; [discriminate|]. destruct (16383 <? off) eqn:E; [lia|]. cbn [orb].
    cbn [Z.ltb Z.compare Pos.compare Pos.compare_cont].
    split; [|split; [lia|reflexivity]].
    rewrite be2 by lia. unfold TAG_POINTER, ptr_bytes. rewrite lor128 by lia. rewrite be2 by lia.
    apply f_equal, f_equal. repeat (apply f_equal2; [lia|]). reflexivity.
Qed.

Lemma write_inline wide b0 b1 : is_byte b0 -> scalar_ty (type_of_byte b0) = true ->
  (wide = true \/ Z.land b0 64 = 0) ->
  write_sized [b0; b1; 0; 0] (width_of wide) wide = Ret (Some (slot_bytes wide [b0; b1; 0; 0])) /\
  sized_fleece_size [b0; b1; 0; 0] = 2.
Proof.
  intros Hb Hs Hw. unfold write_sized, sized_fleece_size, slot_bytes.
  rewrite (scalar_not_ptr b0 b1 Hs). unfold sized_type; cbn [nth].
  destruct wide; cbn [width_of firstn].
  - destruct (type_of_byte b0); try discriminate; split; reflexivity.
  - destruct Hw as [Hw|Hw]; [discriminate|]. rewrite (land_bf b0 Hb Hw).
    destruct (type_of_byte b0); try discriminate; split; reflexivity.
Qed.

Lemma slot_bytes_len n wide s : swf n s -> lenZ (slot_bytes wide s) = width_of wide.
Proof.
  intros [(b0 & b1 & -> & Hs)|(off & -> & Ho & _)]; unfold slot_bytes.
  - rewrite scalar_not_ptr by exact Hs. destruct wide; reflexivity.
  - rewrite is_ptr_mkptr by exact Ho. apply ptr_bytes_len.
Qed.

(** Slot values with their first byte in range (all that the encoder makes). *)
Definition sbyte (s : sized) : Prop := is_byte (nth 0 s 0).

Lemma swf_mono n m s : n <= m -> swf n s -> swf m s.
Proof. intros H [Hi|(off & -> & H1 & H2 & H3)]; [left; exact Hi|right; exists off; repeat split; auto; lia]. Qed.

(** [enc_write] of a slot whose pointer has already been made relative. *)
Lemma enc_write_slot c e wide s q :
  lenZ (en_out e) mod 2 = 0 -> q = lenZ (en_out e) -> q <= MAX_WIDE ->
  swf q s -> sbyte s -> slot_fits wide q s = true ->
  enc_write c e (ESized (fix1 q s)) wide false =
    Ret (set_out e (en_out e ++ slot_bytes wide (fix1 q s)), wrap_u32 q) /\
  lenZ (slot_bytes wide (fix1 q s)) = width_of wide.
Proof.
  intros Hev -> Hmax Hs Hb Hf. unfold enc_write. cbn [fleece_size].
  assert (Hw2 : 2 <= width_of wide <= 4) by (destruct wide; cbn; lia).
  assert (Hgo : exists s', fix1 (lenZ (en_out e)) s = s' /\
     write_sized s' (width_of wide) wide = Ret (Some (slot_bytes wide s')) /\
     (if wide then Z.max (sized_fleece_size s') 4 else sized_fleece_size s') = width_of wide /\
     lenZ (slot_bytes wide s') = width_of wide).
  { unfold fix1. destruct Hs as [(b0 & b1 & -> & Hsc)|(off & -> & Ho & He & Hlt)].
    - exists [b0; b1; 0; 0]. rewrite scalar_not_ptr by exact Hsc. split; [reflexivity|].
      unfold slot_fits in Hf. rewrite scalar_not_ptr in Hf by exact Hsc. cbn [nth] in Hf.
      destruct (write_inline wide b0 b1) as [E1 E2]; [exact Hb|exact Hsc|destruct wide; [left; reflexivity|right; cbn in Hf; lia]|].
      split; [exact E1|]. split; [rewrite E2; destruct wide; reflexivity|].
      eapply (slot_bytes_len 0). left. eauto.
    - rewrite is_ptr_mkptr by exact Ho. rewrite pointer_offset_mkptr by exact Ho.
      unfold slot_fits in Hf. rewrite is_ptr_mkptr in Hf by exact Ho. rewrite pointer_offset_mkptr in Hf by exact Ho.
      set (o := lenZ (en_out e) - off) in *. exists (mkptr o). split; [reflexivity|].
      assert (Ho2 : 0 <= o <= MAX_WIDE) by lia.
      destruct (write_ptr wide o Ho2) as (E1 & E2 & E3); [destruct wide; [left; reflexivity|right; cbn in Hf; lia]|].
      assert (Hsb : slot_bytes wide (mkptr o) = ptr_bytes wide o)
        by (unfold slot_bytes; rewrite is_ptr_mkptr, pointer_offset_mkptr by exact Ho2; reflexivity).
      rewrite Hsb. split; [exact E1|]. split; [|apply ptr_bytes_len].
      destruct wide; cbn [width_of] in *; [lia|apply E3; reflexivity]. }
  destruct Hgo as (s' & -> & Hwr & Hsz & Hln). split; [|exact Hln].
  replace (if wide && negb false then Z.max (sized_fleece_size s') 4 else sized_fleece_size s')
    with (width_of wide) by (rewrite <- Hsz; destruct wide; reflexivity).
  cbn [write_to]. rewrite Hwr; cbn [bind]. rewrite Hln, Z.eqb_refl.
  rewrite pad_even_even; [reflexivity|].
  rewrite lenZ_app, Hln. destruct wide; cbn [width_of]; lia.
Qed.

(** Runs of slots. *)
Fixpoint slots_bytes (wide : bool) (q : Z) (vs : list sized) : list Z :=
  match vs with
  | [] => []
  | s :: r => slot_bytes wide (fix1 q s) ++ slots_bytes wide (q + width_of wide) r
  end.
Fixpoint fixed (w q : Z) (vs : list sized) : list sized :=
  match vs with
  | [] => []
  | s :: r => fix1 q s :: fixed w (q + w) r
  end.
Fixpoint arr_fits (wide : bool) (q : Z) (vs : list sized) : bool :=
  match vs with
  | [] => true
  | s :: r => slot_fits wide q s && arr_fits wide (q + width_of wide) r
  end.

Definition LIMIT : Z := 1073741824.

Lemma fix_pointer_ok dbg off q : 0 <= off < q -> q <= MAX_WIDE ->
  fix_pointer dbg (mkptr off) q = Ret (mkptr (q - off)).
Proof.
  intros Ho Hq. unfold MAX_WIDE in *. unfold fix_pointer, actual_pointer_offset.
  rewrite pointer_offset_mkptr by (unfold MAX_WIDE; lia). unfold usize_sub.
  destruct (off <=? q) eqn:E; [|lia]. cbn [bind].
  rewrite wrap_u32_id by (unfold two32; lia).
  rewrite new_pointer_ok by (unfold MAX_WIDE; lia). reflexivity.
Qed.

Lemma fix1_ok dbg n q s : swf n s -> n <= q -> q <= MAX_WIDE ->
  (if is_ptr s then fix_pointer dbg s q else Ret s) = Ret (fix1 q s).
Proof.
  intros Hs Hn Hq. unfold fix1. destruct Hs as [(b0 & b1 & -> & Hsc)|(off & -> & Ho & _ & Hlt)].
  - rewrite scalar_not_ptr by exact Hsc. reflexivity.
  - rewrite is_ptr_mkptr, pointer_offset_mkptr by exact Ho. apply fix_pointer_ok; lia.
Qed.

Lemma fix_array_ok dbg wide n : forall vs q,
  Forall (swf n) vs -> n <= q -> 0 <= q -> q + lenZ vs * width_of wide <= MAX_WIDE ->
  fix_array_pointers dbg q (width_of wide) vs = Ret (fixed (width_of wide) q vs).
Proof.
  assert (Hw2 : 2 <= width_of wide <= 4) by (destruct wide; cbn; lia).
  induction vs as [|s vs IH]; intros q Hs Hn Hq0 Hq; [reflexivity|].
  rewrite lenZ_cons in Hq. pose proof (lenZ_nonneg vs). inversion Hs as [|? ? Hs1 Hs2]; subst.
  cbn [fix_array_pointers fixed]. rewrite (fix1_ok dbg n q s) by (assumption || lia). cbn [bind].
  unfold u32_add, two32. unfold MAX_WIDE in *. destruct (q + width_of wide <? 4294967296) eqn:E; [|nia]. cbn [bind].
  rewrite IH by (assumption || nia). reflexivity.
Qed.

Lemma set_out_out e o : en_out (set_out e o) = o.
Proof. reflexivity. Qed.
Lemma set_out_set_out e o p : set_out (set_out e o) p = set_out e p.
Proof. reflexivity. Qed.

Lemma write_slots_ok c wide n : forall vs e q,
  q = lenZ (en_out e) -> q mod 2 = 0 -> n <= q -> q + lenZ vs * width_of wide <= MAX_WIDE + 1 ->
  Forall (swf n) vs -> Forall sbyte vs -> arr_fits wide q vs = true ->
  write_slots c e wide (fixed (width_of wide) q vs) =
    Ret (set_out e (en_out e ++ slots_bytes wide q vs)).
Proof.
  assert (Hw2 : 2 <= width_of wide <= 4 /\ width_of wide mod 2 = 0) by (destruct wide; cbn; lia).
  induction vs as [|s vs IH]; intros e q Hq Hev Hn Hmax Hs Hb Hf.
  - cbn [write_slots fixed slots_bytes]. rewrite app_nil_r. destruct e; reflexivity.
  - rewrite lenZ_cons in Hmax. pose proof (lenZ_nonneg vs).
    inversion Hs as [|? ? Hs1 Hs2]; subst. inversion Hb as [|? ? Hb1 Hb2]; subst.
    cbn [arr_fits] in Hf. apply andb_true_iff in Hf as [Hf1 Hf2].
    cbn [write_slots fixed slots_bytes].
    destruct (enc_write_slot c e wide s (lenZ (en_out e))) as [E1 E2]; auto; try nia.
    { eapply swf_mono; [|exact Hs1]. lia. }
    rewrite E1; cbn [bind fst].
    rewrite IH; auto; cbn [set_out en_out]; rewrite ?lenZ_app, ?E2; try lia; try nia.
    rewrite <- app_assoc. reflexivity.
Qed.

Lemma slots_bytes_len wide n : forall vs q, Forall (swf n) vs -> n <= q ->
  (q + lenZ vs * width_of wide <= MAX_WIDE + 1) ->
  lenZ (slots_bytes wide q vs) = lenZ vs * width_of wide.
Proof.
  assert (Hw2 : 2 <= width_of wide <= 4) by (destruct wide; cbn; lia).
  induction vs as [|s vs IH]; intros q Hs Hn Hmax; [reflexivity|].
  rewrite lenZ_cons in Hmax. pose proof (lenZ_nonneg vs).
  inversion Hs as [|? ? Hs1 Hs2]; subst. cbn [slots_bytes]. rewrite lenZ_app, lenZ_cons.
  rewrite IH by (assumption || nia).
  assert (E : lenZ (slot_bytes wide (fix1 q s)) = width_of wide).
  { destruct Hs1 as [(b0 & b1 & -> & Hsc)|(off & -> & Ho & He & Hlt)]; unfold fix1.
    - rewrite scalar_not_ptr by exact Hsc. apply (slot_bytes_len n). left; eauto.
    - rewrite is_ptr_mkptr, pointer_offset_mkptr by exact Ho. unfold slot_bytes.
      rewrite is_ptr_mkptr by (unfold MAX_WIDE in *; nia). apply ptr_bytes_len. }
  rewrite E. lia.
Qed.

(** The bytes of slot [i]. *)
Lemma slots_bytes_nth wide n : forall vs q i s, Forall (swf n) vs -> n <= q ->
  (q + lenZ vs * width_of wide <= MAX_WIDE + 1) ->
  nthZ vs i = Some s ->
  holds (slots_bytes wide q vs) (i * width_of wide) (slot_bytes wide (fix1 (q + i * width_of wide) s)).
Proof.
  assert (Hw2 : 2 <= width_of wide <= 4) by (destruct wide; cbn; lia).
  induction vs as [|s vs IH]; intros q i x Hs Hn Hmax Hi.
  - apply nthZ_Some in Hi. cbn in Hi. lia.
  - rewrite lenZ_cons in Hmax. pose proof (lenZ_nonneg vs).
    inversion Hs as [|? ? Hs1 Hs2]; subst. apply nthZ_Some in Hi as Hb. cbn [slots_bytes].
    destruct (Z.eq_dec i 0) as [->|Hne].
    + rewrite nthZ_cons_0 in Hi. injection Hi as <-. replace (q + 0 * width_of wide) with q by lia.
      exists [], (slots_bytes wide (q + width_of wide) vs). split; [reflexivity|reflexivity].
    + rewrite nthZ_cons_S in Hi by lia.
      pose proof (IH (q + width_of wide) (i - 1) x Hs2 ltac:(lia) ltac:(nia) Hi) as (a & b & E & El).
      replace (q + width_of wide + (i - 1) * width_of wide) with (q + i * width_of wide) in E by lia.
      rewrite E. exists (slot_bytes wide (fix1 q s) ++ a), b. rewrite <- app_assoc. split; [reflexivity|].
      rewrite lenZ_app, <- El.
      pose proof (slots_bytes_len wide n [s] q) as Hl1. cbn [slots_bytes] in Hl1. rewrite app_nil_r in Hl1.
      rewrite Hl1; [rewrite lenZ_cons, lenZ_nil; lia|constructor; auto|lia|rewrite lenZ_cons, lenZ_nil; nia].
Qed.

(* ---------- headers ---------- *)

Lemma lor8 b : 0 <= b < 8 -> Z.lor 8 (96 + b) = 96 + 8 + b /\ Z.lor 8 (112 + b) = 112 + 8 + b.
Proof.
  intros H. assert (E : ((Z.lor 8 (96 + b) =? 96 + 8 + b) && (Z.lor 8 (112 + b) =? 112 + 8 + b))%bool = true); [|lia].
  apply (range_sweep (fun b => ((Z.lor 8 (96 + b) =? 96 + 8 + b) && (Z.lor 8 (112 + b) =? 112 + 8 + b))%bool) 8); [reflexivity|lia].
Qed.

Lemma enc_write_hdr c e (is_dict : bool) n wide :
  lenZ (en_out e) mod 2 = 0 -> 0 <= n < two63 ->
  exists pad, enc_write c e (EHdr is_dict n) wide true =
    Ret (set_out e (en_out e ++ hdr_bytes (if is_dict then 112 else 96) n wide ++ pad),
         wrap_u32 (lenZ (en_out e))) /\
    lenZ (hdr_bytes (if is_dict then 112 else 96) n wide ++ pad) = hdr_size n.
Proof.
  intros Hev Hn. unfold enc_write. cbn [fleece_size negb]. rewrite andb_false_r.
  set (tag := if is_dict then 112 else 96).
  assert (Hw : write_to (c_dbg c) (EHdr is_dict n) (hdr_fleece_size n) wide = Ret (Some (hdr_bytes tag n wide))).
  { cbn [write_to]. destruct (hdr_fleece_size n <? hdr_fleece_size n) eqn:E; [lia|].
    unfold write_hdr. cbv zeta.
    assert (Eb : ((if wide then Z.lor 8 (Z.lor (if is_dict then TAG_DICT else TAG_ARRAY) (Z.min n VARINT_COUNT / 256))
                   else Z.lor (if is_dict then TAG_DICT else TAG_ARRAY) (Z.min n VARINT_COUNT / 256))
               :: Z.min n VARINT_COUNT mod 256 :: (if VARINT_COUNT <=? n then varint_write n else []))
            = hdr_bytes tag n wide).
    { unfold hdr_bytes, VARINT_COUNT, tag, TAG_DICT, TAG_ARRAY.
      assert (Hm : 0 <= Z.min n 2047 / 256 < 8) by lia.
      set (m := Z.min n 2047 / 256) in *. destruct (lor8 m Hm) as [E1 E2].
      destruct is_dict; rewrite (byte_lor_tag _ m) by (reflexivity || lia); destruct wide; rewrite ?E1, ?E2, ?Z.add_0_r; reflexivity. }
    rewrite Eb. rewrite hdr_bytes_len by (unfold two63, two64 in *; lia). unfold hdr_fleece_size, VARINT_COUNT.
    destruct ((2 + (if 2047 <=? n then varint_size n else 0)) <? _) eqn:E2; [lia|reflexivity]. }
  rewrite Hw; cbn [bind].
  assert (Hl : lenZ (hdr_bytes tag n wide) = hdr_fleece_size n).
  { rewrite hdr_bytes_len by (unfold two63, two64 in *; lia). reflexivity. }
  rewrite Hl, Z.eqb_refl. rewrite pad_even_app by exact Hev.
  unfold pad_even. destruct (lenZ (hdr_bytes tag n wide) mod 2 =? 0) eqn:E.
  - exists []. rewrite app_nil_r. split; [reflexivity|].
    destruct (hdr_bytes_size tag n wide) as [_ ->]; [unfold two63, two64 in *; lia|]. lia.
  - exists [0]. split; [reflexivity|]. rewrite lenZ_app, lenZ_cons, lenZ_nil.
    destruct (hdr_bytes_size tag n wide) as [_ ->]; [unfold two63, two64 in *; lia|]. lia.
Qed.

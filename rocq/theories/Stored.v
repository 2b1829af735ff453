(** Whole values laid out in a buffer, and that the decoder reads them back. *)
From Verif Require Import Prelude Lib Varint VarintProofs Utf8 Float SharedKeys
  Decode Read Encodable Holds Repr EncodableProofs.
From Coq Require Import ZifyBool ZifyNat ZifyN Sorted.
Ltac Zify.zify_post_hook ::= Z.div_mod_to_equations.

(* ---------- pointers and headers as byte strings ---------- *)

Definition ptr_limit (wide : bool) : Z := if wide then 1073741824 else 16384.
Definition ptr_bytes (wide : bool) (off : Z) : list Z :=
  if wide then be_bytes 4 (off / 2 + 2147483648) else be_bytes 2 (off / 2 + 32768).

Lemma ptr_bytes_len wide off : lenZ (ptr_bytes wide off) = width_of wide.
Proof. unfold ptr_bytes, width_of. destruct wide; unfold lenZ; rewrite be_bytes_length; reflexivity. Qed.
Lemma ptr_bytes_bytes wide off : all_bytes (ptr_bytes wide off).
Proof. unfold ptr_bytes. destruct wide; apply be_bytes_bytes. Qed.
Lemma be4 x : 0 <= x < 4294967296 ->
  be_bytes 4 x = [x / 16777216; (x / 65536) mod 256; (x / 256) mod 256; x mod 256].
Proof.
  intros H. unfold be_bytes, le_bytes; cbn [rev app].
  repeat (apply f_equal2; [lia|]). reflexivity.
Qed.
Lemma be2 x : 0 <= x < 65536 -> be_bytes 2 x = [x / 256; x mod 256].
Proof.
  intros H. unfold be_bytes, le_bytes; cbn [rev app]. repeat (apply f_equal2; [lia|]). reflexivity.
Qed.
Lemma ptr_bytes_head wide off : 0 <= off / 2 < ptr_limit wide ->
  exists b r, ptr_bytes wide off = (128 + b) :: r /\ 0 <= b < 64.
Proof.
  unfold ptr_limit, ptr_bytes. intros H. destruct wide.
  - rewrite be4 by lia. exists ((off / 2) / 16777216). eexists. split; [f_equal; lia|lia].
  - rewrite be2 by lia. exists ((off / 2) / 256). eexists. split; [f_equal; lia|lia].
Qed.
Lemma bit6_clear b : 0 <= b < 64 -> Z.land (128 + b) 64 = 0.
Proof.
  intros H.
  assert (E : (Z.land (128 + b) 64 =? 0) = true); [|lia].
  apply (range_sweep (fun b => Z.land (128 + b) 64 =? 0) 64); [reflexivity|lia].
Qed.

(** Header of an array ([tag] 96) or dict ([tag] 112). *)
Definition hdr_bytes (tag n : Z) (wide : bool) : list Z :=
  (tag + (if wide then 8 else 0) + Z.min n 2047 / 256) :: (Z.min n 2047 mod 256)
    :: (if 2047 <=? n then varint_write n else []).
(** Its size including the padding byte. *)
Definition hdr_size (n : Z) : Z :=
  if 2047 <=? n then 2 + varint_size n + varint_size n mod 2 else 2.

Lemma hdr_bytes_len tag n wide : 0 <= n < two64 ->
  lenZ (hdr_bytes tag n wide) = 2 + if 2047 <=? n then varint_size n else 0.
Proof.
  intros H. unfold hdr_bytes. rewrite !lenZ_cons.
  destruct (2047 <=? n); [rewrite varint_size_len by lia|rewrite lenZ_nil]; lia.
Qed.
Lemma varint_size_pos n : 0 <= n < two64 -> 1 <= varint_size n <= 10.
Proof. intros H. rewrite <- varint_size_len by lia. apply varint_write_len; lia. Qed.
Lemma hdr_size_bounds n : 0 <= n < two64 ->
  2 <= hdr_size n <= 12 /\ hdr_size n mod 2 = 0.
Proof. intros H. pose proof (varint_size_pos n H). unfold hdr_size. destruct (2047 <=? n); lia. Qed.
Lemma hdr_bytes_size tag n wide : 0 <= n < two64 ->
  2 <= lenZ (hdr_bytes tag n wide) /\
  hdr_size n = lenZ (hdr_bytes tag n wide) + lenZ (hdr_bytes tag n wide) mod 2.
Proof.
  intros H. rewrite hdr_bytes_len by lia. unfold hdr_size.
  pose proof (varint_size_pos n H). destruct (2047 <=? n); lia.
Qed.

(* ---------- the environment ---------- *)

(** A buffer inside the address space. *)
Definition env_ok (e : env) : Prop :=
  0 <= e_base e /\ e_base e + lenZ (e_data e) < two64 /\ lenZ (e_data e) < two63.

(* ---------- reading headers ---------- *)

Section Header.
  Variables (e : env) (p len tag n : Z) (wide : bool).
  Hypothesis Hn : 0 <= n < two63.
  Hypothesis Htag : tag = 96 \/ tag = 112.
  Hypothesis H : holds (e_data e) p (hdr_bytes tag n wide).
  Hypothesis Hl : hdr_size n <= len.

  Lemma hdr_min : 0 <= Z.min n 2047 / 256 < 8 /\ 0 <= Z.min n 2047 mod 256 < 256.
  Proof using Hn. unfold two63 in Hn. lia. Qed.

  Lemma hdr_len_ok : 2 <= len /\ lenZ (hdr_bytes tag n wide) <= len.
  Proof using Hn Hl.
    assert (Hn64 : 0 <= n < two64) by (unfold two63, two64 in *; lia).
    destruct (hdr_bytes_size tag n wide Hn64) as [H2 H3].
    pose proof (hdr_size_bounds n Hn64). lia.
  Qed.

  Lemma hdr_type :
    value_type e (V p len) = Ret (if tag =? 96 then TyArray else TyDict).
  Proof using All.
    pose proof hdr_min. pose proof hdr_len_ok.
    unfold hdr_bytes in H. rewrite (holds_type _ _ _ _ _ H) by lia.
    destruct Htag as [-> | ->]; cbn [Z.eqb Pos.eqb].
    - rewrite <- Z.add_assoc, type_array by (destruct wide; lia). reflexivity.
    - rewrite <- Z.add_assoc, type_dict by (destruct wide; lia). reflexivity.
  Qed.

  Lemma hdr_byte0 : vbyte e (V p len) 0 = Ret (tag + (if wide then 8 else 0) + Z.min n 2047 / 256).
  Proof using All.
    pose proof hdr_len_ok. unfold hdr_bytes in H. eapply holds_vbyte0; [exact H|lia].
  Qed.

  Lemma hdr_wide : arr_is_wide e (V p len) = Ret wide.
  Proof using All.
    pose proof hdr_min as [Hm _]. unfold arr_is_wide. rewrite hdr_byte0; cbn [bind]. f_equal.
    set (m := Z.min n 2047 / 256) in *.
    assert (Hs : forall k, 0 <= k < 8 ->
       ((Z.land (96 + 8 + k) 8 =? 0) = false /\ (Z.land (96 + 0 + k) 8 =? 0) = true /\
        (Z.land (112 + 8 + k) 8 =? 0) = false /\ (Z.land (112 + 0 + k) 8 =? 0) = true)).
    { intros k Hk.
      assert (E : (negb (Z.land (96 + 8 + k) 8 =? 0) && (Z.land (96 + 0 + k) 8 =? 0) &&
                  negb (Z.land (112 + 8 + k) 8 =? 0) && (Z.land (112 + 0 + k) 8 =? 0))%bool = true)
        by (apply (range_sweep (fun k => (negb (Z.land (96 + 8 + k) 8 =? 0) && (Z.land (96 + 0 + k) 8 =? 0) &&
                  negb (Z.land (112 + 8 + k) 8 =? 0) && (Z.land (112 + 0 + k) 8 =? 0))%bool) 8); [reflexivity|lia]).
      destruct (Z.land (96 + 8 + k) 8 =? 0), (Z.land (96 + 0 + k) 8 =? 0),
        (Z.land (112 + 8 + k) 8 =? 0), (Z.land (112 + 0 + k) 8 =? 0); try discriminate E; auto. }
    destruct (Hs m Hm) as (E1 & E2 & E3 & E4).
    destruct Htag as [-> | ->], wide; rewrite ?E1, ?E2, ?E3, ?E4; reflexivity.
  Qed.

  Lemma hdr_short : exists s, get_short e (V p len) = Ret s /\ Z.land s VARINT_COUNT = Z.min n 2047.
  Proof using All.
    pose proof hdr_min as [Hm1 Hm2]. pose proof hdr_len_ok.
    unfold hdr_bytes in H. eexists. split; [eapply holds_short; [exact H|lia]|].
    unfold VARINT_COUNT. rewrite land_2047, land_15. unfold two63 in Hn.
    destruct Htag as [-> | ->], wide; lia.
  Qed.

  Lemma hdr_varint : 2047 <= n ->
    varint_at e (V p len) 2 = Ret (lenZ (varint_write n), n).
  Proof using All.
    intros Hb. pose proof hdr_len_ok as [_ Hl2].
    assert (Hn64 : 0 <= n < two64) by (unfold two63, two64 in *; lia).
    rewrite hdr_bytes_len in Hl2 by exact Hn64. unfold hdr_bytes in H.
    destruct (2047 <=? n) eqn:E; [|lia].
    apply holds_varint; [exact Hn64|lia| |rewrite varint_size_len by lia; lia].
    apply holds_cons in H as [_ H1]. apply holds_cons in H1 as [_ H2].
    replace (p + 2) with (p + 1 + 1) by lia. exact H2.
  Qed.

  Lemma hdr_arr_len : arr_len e (V p len) = Ret (if tag =? 96 then n else 2 * n).
  Proof using All.
    unfold arr_len. destruct hdr_short as (s & Hs & Hsz). rewrite Hs; cbn [bind]. rewrite Hsz.
    unfold VARINT_COUNT. pose proof hdr_type as Ht.
    assert (Hn64 : 0 <= n < two64) by (unfold two63, two64 in *; lia).
    destruct (Z.min n 2047 =? 2047) eqn:E.
    - rewrite hdr_varint by lia. cbn [bind].
      pose proof (varint_write_len n Hn64).
      destruct (lenZ (varint_write n) =? 0) eqn:E0; [lia|]. rewrite Ht; cbn [bind].
      destruct Htag as [-> | ->]; cbn [Z.eqb Pos.eqb vtype_eqb]; [reflexivity|].
      unfold usize_mul. unfold two63, two64 in *.
      destruct (n * 2 <? 18446744073709551616) eqn:E1; [f_equal; lia|lia].
    - rewrite Ht; cbn [bind]. rewrite Z.min_l by lia.
      destruct Htag as [-> | ->]; cbn [Z.eqb Pos.eqb vtype_eqb]; f_equal; lia.
  Qed.

  Lemma hdr_first : first_pos e (V p len) = Ret (hdr_size n).
  Proof using All.
    pose proof hdr_len_ok. unfold first_pos. cbn [v_len v_pos].
    destruct (len <? 2) eqn:E2; [lia|].
    destruct hdr_short as (s & Hs & Hsz). rewrite Hs; cbn [bind]. rewrite Hsz.
    assert (Hn64 : 0 <= n < two64) by (unfold two63, two64 in *; lia).
    unfold VARINT_COUNT, hdr_size. destruct (Z.min n 2047 =? 2047) eqn:E.
    - rewrite hdr_varint by lia. cbn [bind]. destruct (2047 <=? n) eqn:E3; [|lia].
      rewrite varint_size_len by lia. f_equal.
      destruct (varint_size n mod 2 =? 0) eqn:E4; cbn [negb]; lia.
    - destruct (2047 <=? n) eqn:E3; [lia|reflexivity].
  Qed.
End Header.

(* ---------- stored values ---------- *)

(** A key as a dict holds it, and its text. *)
Definition entry : Type := dkey * (list Z * tree).

(** The order of keys in a dict: shared keys by number, then strings by bytes. *)
Definition dkey_cmp (a b : dkey) : comparison :=
  match a, b with
  | KShared i, KShared j => i ?= j
  | KShared _, KString _ => Lt
  | KString _, KShared _ => Gt
  | KString x, KString y => bytes_cmp x y
  end.
Definition key_le (a b : entry) : Prop := dkey_cmp (fst a) (fst b) <> Gt.

(** A condition on the keys that are stored as strings; each use of this file picks one. *)
Class KeyPred := string_key : list Z -> Prop.
Section KP.
Context {SP : KeyPred}.

(** A string key slot at [q], pointing (if it does) below [bound]. *)
Inductive key_slot (D : list Z) (tb : option shared_keys) (wide : bool) (bound q : Z)
  : dkey -> list Z -> Prop :=
| ks_inline k b0 b1 :
    string_key k -> repr (TStr k) [b0; b1] -> holds D q [b0; b1] ->
    key_slot D tb wide bound q (KString k) k
| ks_ptr k off bs :
    string_key k -> 0 < off -> off mod 2 = 0 -> off / 2 < ptr_limit wide ->
    holds D q (ptr_bytes wide off) ->
    repr (TStr k) bs -> holds D (q - off) bs -> (q - off) mod 2 = 0 -> q - off + lenZ bs <= bound ->
    key_slot D tb wide bound q (KString k) k
| ks_shared k i t :
    0 <= i <= 2047 -> tb = Some t -> sk_decode t i = Some k ->
    holds D q (short_bytes i) ->
    key_slot D tb wide bound q (KShared i) k.

(** [stored D tb t p lim]: the value [t] is laid out in [D] at [p], its own bytes (header and
    slots for a collection) ending at [lim]; everything it points to lies before [p]. *)
Inductive stored (D : list Z) (tb : option shared_keys) : tree -> Z -> Z -> Prop :=
| st_scalar t bs p :
    repr t bs -> holds D p bs -> p mod 2 = 0 ->
    stored D tb t p (p + lenZ bs)
| st_arr ts p wide :
    p mod 2 = 0 ->
    holds D p (hdr_bytes 96 (lenZ ts) wide) ->
    p + hdr_size (lenZ ts) + lenZ ts * width_of wide <= lenZ D ->
    (forall i t, nthZ ts i = Some t ->
       slot D tb wide p (p + hdr_size (lenZ ts) + i * width_of wide) t) ->
    stored D tb (TArr ts) p (p + hdr_size (lenZ ts) + lenZ ts * width_of wide)
| st_dict (kts : list entry) p wide :
    p mod 2 = 0 ->
    holds D p (hdr_bytes 112 (lenZ kts) wide) ->
    p + hdr_size (lenZ kts) + 2 * lenZ kts * width_of wide <= lenZ D ->
    StronglySorted key_le kts ->
    (forall i kk k t, nthZ kts i = Some (kk, (k, t)) ->
       key_slot D tb wide p (p + hdr_size (lenZ kts) + 2 * i * width_of wide) kk k) ->
    (forall i kk k t, nthZ kts i = Some (kk, (k, t)) ->
       slot D tb wide p (p + hdr_size (lenZ kts) + (2 * i + 1) * width_of wide) t) ->
    stored D tb (TDict (map snd kts)) p
      (p + hdr_size (lenZ kts) + 2 * lenZ kts * width_of wide)
with slot (D : list Z) (tb : option shared_keys) : bool -> Z -> Z -> tree -> Prop :=
| sl_inline wide bound q t b0 b1 :
    repr t [b0; b1] -> holds D q [b0; b1] ->
    slot D tb wide bound q t
| sl_ptr wide bound q t off lim :
    0 < off -> off mod 2 = 0 -> off / 2 < ptr_limit wide ->
    holds D q (ptr_bytes wide off) ->
    stored D tb t (q - off) lim -> lim <= bound ->
    slot D tb wide bound q t.

Scheme stored_ind2 := Induction for stored Sort Prop
  with slot_ind2 := Induction for slot Sort Prop.
Combined Scheme stored_slot_ind from stored_ind2, slot_ind2.

Lemma lenZ_lt_two63 {A} (l : list A) (D : list Z) p n w :
  lenZ D < two63 -> 0 <= p -> 2 <= w -> p + n + lenZ l * w <= lenZ D -> 0 <= n ->
  0 <= lenZ l < two63.
Proof. intros H1 H2 H3 H4 H5. pose proof (lenZ_nonneg l). nia. Qed.

Lemma width_bounds wide : 2 <= width_of wide <= 4 /\ width_of wide mod 2 = 0.
Proof. destruct wide; cbn; lia. Qed.

Lemma stored_bounds D tb t p lim : stored D tb t p lim -> 0 <= p /\ p + 2 <= lim.
Proof.
  intros Hs. destruct Hs as [t bs p Hr Hh Hp|ts p wide Hp Hh Hlim Hsl|kts p wide Hp Hh Hlim Hsrt Hk Hsl].
  - apply holds_bounds in Hh. apply repr_len in Hr. lia.
  - apply holds_bounds in Hh. pose proof (lenZ_nonneg ts). pose proof (width_bounds wide).
    unfold hdr_size. destruct (2047 <=? lenZ ts) eqn:E; [|nia].
    unfold varint_size. destruct (lenZ ts =? 0); [nia|]. pose proof (Z.log2_nonneg (lenZ ts)). nia.
  - apply holds_bounds in Hh. pose proof (lenZ_nonneg kts). pose proof (width_bounds wide).
    unfold hdr_size. destruct (2047 <=? lenZ kts) eqn:E; [|nia].
    unfold varint_size. destruct (lenZ kts =? 0); [nia|]. pose proof (Z.log2_nonneg (lenZ kts)). nia.
Qed.

Lemma stored_lim D tb t p lim : stored D tb t p lim -> lim <= lenZ D /\ p mod 2 = 0.
Proof.
  intros Hs. destruct Hs as [t bs p Hr Hh Hp|ts p wide Hp Hh Hlim Hsl|kts p wide Hp Hh Hlim Hsrt Hk Hsl]; [|lia|lia].
  apply holds_bounds in Hh. lia.
Qed.

Lemma stored_mono_aux D tb X :
  (forall t p lim, stored D tb t p lim -> stored (D ++ X) tb t p lim) /\
  (forall w b q t, slot D tb w b q t -> slot (D ++ X) tb w b q t).
Proof.
  apply (stored_slot_ind D tb
    (fun t p lim _ => stored (D ++ X) tb t p lim)
    (fun w b q t _ => slot (D ++ X) tb w b q t)).
  - intros t bs p Hr Hh Hp. apply st_scalar; auto using holds_mono.
  - intros ts p wide Hp Hh Hlim Hsl IH. apply st_arr; auto using holds_mono.
    rewrite lenZ_app. pose proof (lenZ_nonneg X). lia.
  - intros kts p wide Hp Hh Hlim Hsrt Hk Hsl IH. apply st_dict; auto using holds_mono.
    + rewrite lenZ_app. pose proof (lenZ_nonneg X). lia.
    + intros i kk k t Hn. specialize (Hk i kk k t Hn). destruct Hk.
      * eapply ks_inline; eauto using holds_mono.
      * eapply ks_ptr; eauto using holds_mono.
      * eapply ks_shared; eauto using holds_mono.
  - intros. eapply sl_inline; eauto using holds_mono.
  - intros. eapply sl_ptr; eauto using holds_mono.
Qed.
Lemma stored_mono D tb X t p lim : stored D tb t p lim -> stored (D ++ X) tb t p lim.
Proof. apply stored_mono_aux. Qed.

(** Growing the key table. *)
Definition sk_ext (a b : option shared_keys) : Prop :=
  match a, b with
  | None, _ => True
  | Some t, Some u => exists x, u = t ++ x
  | Some _, None => False
  end.
Lemma sk_ext_refl a : sk_ext a a.
Proof. destruct a; cbn; [exists []; rewrite app_nil_r; reflexivity|exact I]. Qed.
Lemma sk_ext_trans a b c : sk_ext a b -> sk_ext b c -> sk_ext a c.
Proof.
  destruct a as [a|], b as [b|], c as [c|]; cbn; try tauto.
  intros [x ->] [y ->]. exists (x ++ y). rewrite app_assoc. reflexivity.
Qed.
Lemma sk_ext_decode t u i k : sk_ext (Some t) (Some u) -> sk_decode t i = Some k -> sk_decode u i = Some k.
Proof.
  intros [x ->] H. unfold sk_decode in *. apply nthZ_Some in H as Hb.
  rewrite nthZ_app_l by lia. exact H.
Qed.
Lemma key_slot_ext D tb tb' w b q kk k :
  sk_ext tb tb' -> key_slot D tb w b q kk k -> key_slot D tb' w b q kk k.
Proof.
  intros Hx Hk. destruct Hk.
  - eapply ks_inline; eauto.
  - eapply ks_ptr; eauto.
  - subst tb. destruct tb' as [t'|]; [|contradiction].
    eapply ks_shared; eauto. eapply sk_ext_decode; eauto.
Qed.
Lemma stored_ext_aux D tb tb' : sk_ext tb tb' ->
  (forall t p lim, stored D tb t p lim -> stored D tb' t p lim) /\
  (forall w b q t, slot D tb w b q t -> slot D tb' w b q t).
Proof.
  intros Hx.
  apply (stored_slot_ind D tb
    (fun t p lim _ => stored D tb' t p lim)
    (fun w b q t _ => slot D tb' w b q t)).
  - intros t bs p Hr Hh Hp. apply st_scalar; auto.
  - intros ts p wide Hp Hh Hlim Hsl IH. apply st_arr; auto.
  - intros kts p wide Hp Hh Hlim Hsrt Hk Hsl IH. apply st_dict; auto.
    intros. eapply key_slot_ext; eauto.
  - intros. eapply sl_inline; eauto.
  - intros. eapply sl_ptr; eauto.
Qed.
Lemma stored_ext D tb tb' t p lim : sk_ext tb tb' -> stored D tb t p lim -> stored D tb' t p lim.
Proof. intros Hx. apply (stored_ext_aux D tb tb' Hx). Qed.

(* ---------- pointers ---------- *)

Lemma get_offset_ptr e q len wide off :
  0 <= off -> off mod 2 = 0 -> off / 2 < ptr_limit wide ->
  holds (e_data e) q (ptr_bytes wide off) ->
  get_offset e (V q len) wide = Ret off.
Proof.
  intros H0 He Hlt H. unfold get_offset; cbn [v_pos].
  pose proof (ptr_bytes_len wide off) as Hl. unfold ptr_bytes, ptr_limit, width_of in *.
  destruct wide.
  - rewrite (holds_raw_bytes _ _ _ _ H) by lia. cbn [bind].
    rewrite be_val_be_bytes by lia. rewrite land_3fffffff. change (256 ^ Z.of_nat 4) with 4294967296.
    f_equal. lia.
  - rewrite (holds_raw_bytes _ _ _ _ H) by lia. cbn [bind].
    rewrite be_val_be_bytes by lia. rewrite land_3fff. change (256 ^ Z.of_nat 2) with 65536.
    f_equal. lia.
Qed.

Lemma ptr_type e q len wide off :
  0 <= off / 2 < ptr_limit wide -> 1 <= len ->
  holds (e_data e) q (ptr_bytes wide off) -> value_type e (V q len) = Ret TyPointer.
Proof.
  intros Hb Hl H. destruct (ptr_bytes_head wide off Hb) as (b & r & E & Hbr). rewrite E in H.
  rewrite (holds_type _ _ _ _ _ H) by lia. rewrite type_pointer by lia. reflexivity.
Qed.

Lemma ptr_target_ok e q len off :
  env_ok e -> 0 <= q < lenZ (e_data e) -> 0 <= off <= q -> ptr_target e (V q len) off = q - off.
Proof.
  intros (H1 & H2 & _) Hq Ho. unfold ptr_target; cbn [v_pos]. unfold wrap_u64.
  rewrite Z.mod_small by lia. lia.
Qed.

Lemma fuel_of_S e : exists f, fuel_of e = S (S f).
Proof. unfold fuel_of. eauto. Qed.

Definition nonptr (e : env) (v : val) : Prop :=
  exists ty, value_type e v = Ret ty /\ ty <> TyPointer.

Lemma nonptr_eqb e v : nonptr e v -> exists ty, value_type e v = Ret ty /\ vtype_eqb ty TyPointer = false.
Proof.
  intros (ty & Hv & Hn). exists ty. split; [exact Hv|].
  destruct (vtype_eqb ty TyPointer) eqn:E; [|reflexivity]. apply vtype_eqb_eq in E. contradiction.
Qed.

End KP.

Section Deref.
  Variables (e : env) (q len off : Z) (wide : bool).
  Hypothesis Hok : env_ok e.
  Hypothesis Hoff : 0 < off.
  Hypothesis Heven : off mod 2 = 0.
  Hypothesis Hlim : off / 2 < ptr_limit wide.
  Hypothesis H : holds (e_data e) q (ptr_bytes wide off).
  Hypothesis Hle : off <= q.
  Hypothesis Hlen : width_of wide <= len.

  Lemma deref_q : 0 <= q < lenZ (e_data e).
  Proof using H. apply holds_bounds in H. rewrite ptr_bytes_len in H. pose proof (width_bounds wide). lia. Qed.

  Lemma deref_unchecked_ok f :
    nonptr e (V (q - off) off) ->
    deref_unchecked (S f) e (V q len) wide = Ret (V (q - off) off).
  Proof using All.
    intros Hn. pose proof deref_q. destruct (nonptr_eqb _ _ Hn) as (ty & Hv & Hnp).
    cbn [deref_unchecked]. rewrite (get_offset_ptr e q len wide off) by (assumption || lia).
    cbn [bind]. replace (e_dbg e && (off =? 0)) with false by (destruct (e_dbg e); lia).
    rewrite ptr_target_ok by (assumption || lia). rewrite Hv; cbn [bind]. rewrite Hnp. reflexivity.
  Qed.

  Lemma deref_unchecked_step f :
    value_type e (V (q - off) off) = Ret TyPointer ->
    deref_unchecked (S f) e (V q len) wide = deref_unchecked f e (V (q - off) off) true.
  Proof using All.
    intros Hv. pose proof deref_q.
    cbn [deref_unchecked]. rewrite (get_offset_ptr e q len wide off) by (assumption || lia).
    cbn [bind]. replace (e_dbg e && (off =? 0)) with false by (destruct (e_dbg e); lia).
    rewrite ptr_target_ok by (assumption || lia). rewrite Hv; cbn [bind]. reflexivity.
  Qed.

  Lemma deref_checked_aux f ty :
    value_type e (V (q - off) off) = Ret ty ->
    deref_checked (S f) e (V q len) wide =
    if vtype_eqb ty TyPointer then deref_checked f e (V (q - off) off) true
    else Ret (Ok (V (q - off) off)).
  Proof using All.
    intros Hv. pose proof deref_q. cbn [deref_checked v_len].
    pose proof (width_bounds wide).
    replace ((wide && (len <? 4)) || (len <? 2)) with false
      by (destruct wide; cbn [width_of] in Hlen; lia).
    rewrite (get_offset_ptr e q len wide off) by (assumption || lia). cbn [bind].
    destruct (off =? 0) eqn:E0; [lia|].
    assert (Hb0 : 0 <= off / 2 < ptr_limit wide) by lia.
    destruct (ptr_bytes_head wide off Hb0) as (b & r & E & Hbr).
    pose proof H as H'. rewrite E in H'. rewrite (holds_vbyte0 _ _ _ _ _ H') by lia. cbn [bind].
    rewrite bit6_clear by lia. cbn [Z.eqb negb].
    rewrite ptr_target_ok by (assumption || lia).
    destruct (q - off <? 0) eqn:E1; [lia|].
    rewrite Hv; cbn [bind]. reflexivity.
  Qed.
  Lemma deref_checked_ok f :
    nonptr e (V (q - off) off) ->
    deref_checked (S f) e (V q len) wide = Ret (Ok (V (q - off) off)).
  Proof using All.
    intros Hn. destruct (nonptr_eqb _ _ Hn) as (ty & Hv & Hnp).
    rewrite (deref_checked_aux f ty Hv), Hnp. reflexivity.
  Qed.

  Lemma resolve_ptr :
    nonptr e (V (q - off) off) -> resolve e (V q len) wide = Ret (V (q - off) off).
  Proof using All.
    intros Hn. unfold resolve. pose proof (width_bounds wide).
    rewrite (ptr_type e q len wide off) by (assumption || lia).
    cbn [bind vtype_eqb]. destruct (fuel_of_S e) as [f ->]. apply deref_unchecked_ok; assumption.
  Qed.
End Deref.

Section KP2.
Context {SP : KeyPred}.


Lemma resolve_nonptr e v wide : nonptr e v -> resolve e v wide = Ret v.
Proof.
  intros Hn. destruct (nonptr_eqb _ _ Hn) as (ty & Hv & Hnp). unfold resolve. rewrite Hv; cbn [bind].
  rewrite Hnp. reflexivity.
Qed.

(* ---------- types of stored values ---------- *)

Lemma repr_type_nonptr e p len t bs :
  repr t bs -> holds (e_data e) p bs -> lenZ bs <= len -> nonptr e (V p len).
Proof.
  intros (_ & _ & Hr) H Hl. destruct (Hr e p len H Hl) as (_ & _ & ty & Hv & Hs).
  exists ty. split; [exact Hv|]. destruct ty; discriminate.
Qed.

Lemma stored_nonptr e tb t p len lim :
  env_ok e -> stored (e_data e) tb t p lim -> lim <= p + len -> nonptr e (V p len).
Proof.
  intros Hok Hs Hl. pose proof (stored_bounds _ _ _ _ _ Hs) as [Hp0 _].
  destruct Hs as [t bs p Hr Hh Hp|ts p wide Hp Hh Hlim Hsl|kts p wide Hp Hh Hlim Hsrt Hk Hsl].
  - eapply repr_type_nonptr; eauto. lia.
  - pose proof (width_bounds wide) as [Hw _]. destruct Hok as (_ & _ & H63).
    pose proof (lenZ_nonneg ts).
    assert (Hn : 0 <= lenZ ts < two63).
    { apply (lenZ_lt_two63 ts (e_data e) p (hdr_size (lenZ ts)) (width_of wide)); try lia.
      unfold hdr_size. destruct (2047 <=? lenZ ts); [|lia]. unfold varint_size.
      destruct (lenZ ts =? 0); [cbn; lia|]. pose proof (Z.log2_nonneg (lenZ ts)). lia. }
    exists TyArray. split; [|discriminate].
    rewrite (hdr_type e p len 96 (lenZ ts) wide); auto. nia.
  - pose proof (width_bounds wide) as [Hw _]. destruct Hok as (_ & _ & H63).
    pose proof (lenZ_nonneg kts).
    assert (Hn : 0 <= lenZ kts < two63).
    { apply (lenZ_lt_two63 kts (e_data e) p (hdr_size (lenZ kts)) (2 * width_of wide)); try lia.
      unfold hdr_size. destruct (2047 <=? lenZ kts); [|lia]. unfold varint_size.
      destruct (lenZ kts =? 0); [cbn; lia|]. pose proof (Z.log2_nonneg (lenZ kts)). lia. }
    exists TyDict. split; [|discriminate].
    rewrite (hdr_type e p len 112 (lenZ kts) wide); auto. nia.
Qed.

(** Value [t] can be read at [v]. *)
Definition vstored (e : env) (tb : option shared_keys) (t : tree) (v : val) : Prop :=
  (exists bs, repr t bs /\ holds (e_data e) (v_pos v) bs /\ lenZ bs <= v_len v) \/
  (exists lim, stored (e_data e) tb t (v_pos v) lim /\ lim <= v_pos v + v_len v).

Lemma vstored_nonptr e tb t v : env_ok e -> vstored e tb t v -> nonptr e v.
Proof.
  intros Hok [(bs & Hr & Hh & Hl)|(lim & Hs & Hl)]; destruct v as [p len]; cbn [v_pos v_len] in *.
  - eapply repr_type_nonptr; eauto.
  - eapply stored_nonptr; eauto.
Qed.

(** Where a slot leads. *)
Lemma slot_resolve e tb wide bound q t :
  env_ok e -> bound <= q -> slot (e_data e) tb wide bound q t ->
  exists v, resolve e (V q (width_of wide)) wide = Ret v /\ vstored e tb t v /\
    (v_pos v = q \/ v_pos v + 2 <= bound).
Proof.
  intros Hok Hb Hs. pose proof (width_bounds wide) as [Hw _].
  destruct Hs as [wide bound q t b0 b1 Hr Hh|wide bound q t off lim Ho He Hlt Hh Hst Hlim].
  - exists (V q (width_of wide)). split; [|split].
    + apply resolve_nonptr. eapply repr_type_nonptr; eauto. cbn; lia.
    + left. exists [b0; b1]. cbn [v_pos v_len]. split; [exact Hr|]. split; [exact Hh|]. cbn; lia.
    + left. reflexivity.
  - pose proof (stored_bounds _ _ _ _ _ Hst).
    exists (V (q - off) off). split; [|split].
    + apply resolve_ptr; try assumption; try lia.
      eapply stored_nonptr; eauto. lia.
    + right. exists lim. cbn [v_pos v_len]. split; [exact Hst|lia].
    + right. cbn [v_pos]. lia.
Qed.

(** Keys: the slot leads to a short (shared) or a string value. *)
Definition vkey (e : env) (tb : option shared_keys) (kk : dkey) (k : list Z) (v : val) : Prop :=
  match kk with
  | KShared i =>
      value_type e v = Ret TyShort /\ to_unsigned_short e v = Ret i /\
      exists t, tb = Some t /\ sk_decode t i = Some k
  | KString s => value_type e v = Ret TyString /\ to_str e v = Ret s /\ s = k /\ string_key k
  end.

Lemma short_key e q len i :
  0 <= i <= 2047 -> holds (e_data e) q (short_bytes i) -> 2 <= len ->
  value_type e (V q len) = Ret TyShort /\ to_unsigned_short e (V q len) = Ret i /\
  to_int e (V q len) = Ret i.
Proof.
  intros Hi H Hl. unfold short_bytes in H. unfold wrap_u16, two16 in H.
  assert (Ht : value_type e (V q len) = Ret TyShort).
  { rewrite (holds_type _ _ _ _ _ H) by lia. rewrite type_short by lia. reflexivity. }
  assert (Hg : get_short e (V q len) = Ret i).
  { rewrite (holds_short _ _ _ _ _ _ H) by lia. rewrite land_15. f_equal; lia. }
  split; [exact Ht|]. split.
  - unfold to_unsigned_short. rewrite Ht; cbn [bind]. exact Hg.
  - unfold to_int. rewrite Ht; cbn [bind]. rewrite Hg; cbn [bind].
    pose proof (short_round i ltac:(lia)) as E. unfold wrap_u16, two16 in E.
    replace ((i mod 65536) mod 4096) with i in E by lia. rewrite E. reflexivity.
Qed.

Lemma key_slot_resolve e tb wide bound q kk k :
  env_ok e -> bound <= q -> key_slot (e_data e) tb wide bound q kk k ->
  exists v, resolve e (V q (width_of wide)) wide = Ret v /\ vkey e tb kk k v.
Proof.
  intros Hok Hb Hs. pose proof (width_bounds wide) as [Hw _].
  destruct Hs as [k b0 b1 Hsp Hr Hh|k off bs Hsp Ho He Hlt Hh Hr Hh2 Hev Hlim|k i t Hi Htb Hdec Hh].
  - exists (V q (width_of wide)). split.
    + apply resolve_nonptr. eapply repr_type_nonptr; eauto. cbn; lia.
    + destruct (repr_str_type k [b0; b1] e q (width_of wide) Hr Hh) as [E1 E2]; [cbn; lia|].
      cbn [vkey]. auto.
  - pose proof (holds_bounds _ _ _ Hh2). pose proof (repr_len _ _ Hr).
    exists (V (q - off) off). split.
    + apply resolve_ptr; try assumption; try lia. eapply repr_type_nonptr; eauto. lia.
    + destruct (repr_str_type k bs e (q - off) off Hr Hh2) as [E1 E2]; [lia|].
      cbn [vkey]. auto.
  - destruct (short_key e q (width_of wide) i Hi Hh) as (E1 & E2 & _); [lia|].
    exists (V q (width_of wide)). split.
    + apply resolve_nonptr. exists TyShort. split; [exact E1|discriminate].
    + cbn [vkey]. eauto.
Qed.
End KP2.

(** Below the size limit every call on an encoder returns, whatever was written before. *)
From Verif Require Import Prelude Lib Varint VarintProofs Utf8 SharedKeys Decode Encodable Encoder BuilderSpec TotalSpec
  Holds Repr EncodableProofs Stored SlotProofs EncoderProofs EncoderInv EncoderClean EncoderProtocol EncoderLimit.
From Coq Require Import ZifyBool ZifyNat ZifyN Sorted Permutation.
Ltac Zify.zify_post_hook ::= Z.div_mod_to_equations.

(* ---------- appending bytes ---------- *)

Definition appended (e e' : enc) : Prop :=
  exists bs, all_bytes bs /\ e' = set_out e (en_out e ++ bs) /\ out_even e'.
Lemma appended_trans a b c : appended a b -> appended b c -> appended a c.
Proof.
  intros (x & Hx & -> & _) (y & Hy & -> & Hev). exists (x ++ y). split; [apply all_bytes_app; auto|].
  split; [|exact Hev]. cbn [set_out en_out]. unfold set_out. cbn [en_out en_sk en_stack en_closed]. rewrite app_assoc. reflexivity.
Qed.
Lemma appended_refl e : out_even e -> appended e e.
Proof. intros H. exists []. split; [constructor|]. rewrite app_nil_r. split; [destruct e; reflexivity|exact H]. Qed.

Lemma pad_even_bytes l : all_bytes l -> all_bytes (pad_even l).
Proof.
  intros H. unfold pad_even. destruct (_ =? 0); [exact H|]. apply all_bytes_app. split; [exact H|].
  constructor; [unfold is_byte; lia|constructor].
Qed.
Lemma enc_write_total c e v w k bs :
  let n := if w && negb k then Z.max (fleece_size v) 4 else fleece_size v in
  write_to (c_dbg c) v n w = Ret (Some bs) -> lenZ bs = n -> all_bytes bs -> out_even e ->
  exists e', enc_write c e v w k = Ret (e', wrap_u32 (lenZ (en_out e))) /\ appended e e' /\ lenZ (en_out e) + lenZ bs <= lenZ (en_out e').
Proof.
  intros n Hw Hl Hb He. unfold enc_write. fold n. rewrite Hw. cbn [bind]. rewrite Hl, Z.eqb_refl.
  eexists. split; [reflexivity|]. rewrite pad_even_app by exact He. split.
  - exists (pad_even bs). split; [apply pad_even_bytes; exact Hb|]. split; [reflexivity|].
    unfold out_even in *. cbn [set_out en_out]. rewrite lenZ_app, pad_even_len. lia.
  - cbn [set_out en_out]. rewrite lenZ_app, pad_even_len. lia.
Qed.

(* ---------- slots ---------- *)

Definition slot_ok (s : sized) : Prop :=
  lenZ s = 4 /\ all_bytes s /\ (is_ptr s = true -> 0 <= pointer_offset s <= MAX_WIDE).
Lemma byte_land_bf b : is_byte b -> is_byte (Z.land b 191).
Proof.
  intros H. assert (E : ((0 <=? Z.land b 191) && (Z.land b 191 <? 256))%bool = true); [|unfold is_byte; lia].
  apply (range_sweep (fun b => ((0 <=? Z.land b 191) && (Z.land b 191 <? 256))%bool) 256); [reflexivity|exact H].
Qed.
Lemma ptr_bytes_bytes w off : 0 <= off <= MAX_WIDE -> (w = true \/ off <= MAX_NARROW) -> all_bytes (ptr_bytes w off).
Proof. intros _ _. unfold ptr_bytes. destruct w; apply be_bytes_bytes. Qed.
Lemma write_slot_total c e s w : slot_ok s -> out_even e ->
  exists e' o, enc_write c e (ESized s) w false = Ret (e', o) /\ appended e e'.
Proof.
  intros (Hl & Hb & Hp) He.
  assert (H4 : exists b0 b1 b2 b3, s = [b0; b1; b2; b3]).
  { destruct s as [|b0 [|b1 [|b2 [|b3 [|b4 s]]]]]; unfold lenZ in Hl; cbn [length] in Hl; try lia. eauto. }
  destruct H4 as (b0 & b1 & b2 & b3 & ->). unfold all_bytes in Hb.
  inversion Hb as [|? ? B0 Hb1]; subst. inversion Hb1 as [|? ? B1 Hb2]; subst. inversion Hb2 as [|? ? B2 Hb3]; subst. inversion Hb3 as [|? ? B3 _]; subst.
  destruct (is_ptr [b0; b1; b2; b3]) eqn:Ei.
  - specialize (Hp eq_refl). unfold is_ptr in Ei. apply vtype_eqb_eq in Ei.
    set (s := [b0; b1; b2; b3]) in *. set (off := pointer_offset s) in *.
    set (big := MAX_NARROW <? off).
    destruct (enc_write_total c e (ESized s) w false (ptr_bytes (big || w) off)) as (e' & E & A & _); cbn [fleece_size write_to negb]; rewrite ?andb_true_r.
    + unfold sized_fleece_size, write_sized. rewrite Ei. fold off. fold big. unfold MAX_WIDE, MAX_NARROW in *.
      destruct big eqn:Eb; cbn [orb].
      * destruct w; cbn [Z.max Z.ltb Z.compare Pos.compare Pos.compare_cont];
        rewrite be4 by lia; unfold TAG_POINTER, ptr_bytes; rewrite lor128 by lia; rewrite be4 by lia;
        apply f_equal, f_equal; repeat (apply f_equal2; [lia|]); reflexivity.
      * destruct w; cbn [Z.max Z.ltb Z.compare Pos.compare Pos.compare_cont].
        -- rewrite be4 by lia; unfold TAG_POINTER, ptr_bytes; rewrite lor128 by lia; rewrite be4 by lia;
           apply f_equal, f_equal; repeat (apply f_equal2; [lia|]); reflexivity.
        -- unfold big in Eb. rewrite be2 by lia; unfold TAG_POINTER, ptr_bytes; rewrite lor128 by lia; rewrite be2 by lia;
           apply f_equal, f_equal; repeat (apply f_equal2; [lia|]); reflexivity.
    + rewrite ptr_bytes_len. unfold sized_fleece_size. rewrite Ei. fold off. fold big. destruct big, w; reflexivity.
    + unfold ptr_bytes. destruct (big || w); apply be_bytes_bytes.
    + exact He.
    + eauto.
  - assert (Hs : sized_fleece_size [b0; b1; b2; b3] = 2).
    { unfold is_ptr in Ei. unfold sized_fleece_size. destruct (sized_type _); try reflexivity. discriminate. }
    destruct (enc_write_total c e (ESized [b0; b1; b2; b3]) w false (if w then [b0; b1; b2; b3] else [Z.land b0 191; b1])) as (e' & E & A & _);
      cbn [fleece_size write_to negb]; rewrite ?andb_true_r, ?Hs.
    + unfold write_sized. unfold is_ptr in Ei. destruct (sized_type [b0; b1; b2; b3]); try discriminate; destruct w; reflexivity.
    + destruct w; reflexivity.
    + destruct w; [exact Hb|]. constructor; [apply byte_land_bf; exact B0|]. constructor; [exact B1|constructor].
    + exact He.
    + eauto.
Qed.

(** A slot value on the stack, with the output [n] bytes long. *)
Definition sgood (n : Z) (s : sized) : Prop := swf n s /\ all_bytes s.
Definition ktame (n : Z) (k : dictkey) : Prop :=
  kgood n k /\ match k with DKInline s => all_bytes s | DKPointer _ off => off mod 2 = 0 | _ => True end.
Definition dtame (n : Z) (d : delem) : Prop := ktame n (de_key d) /\ sgood n (de_val d).
Definition coll_tame (n : Z) (c : coll) : Prop :=
  match c with
  | CArr vs => Forall (sgood n) vs
  | CDict vs k => Forall (dtame n) vs /\ match k with Some k => ktame n k | None => True end
  end.
Record tame (e : enc) : Prop := mk_tame {
  t_even : out_even e;
  t_bytes : all_bytes (en_out e);
  t_stack : Forall (coll_tame (lenZ (en_out e))) (en_stack e);
}.

Lemma sgood_mono n m s : n <= m -> sgood n s -> sgood m s.
Proof. intros H [H1 H2]. split; [eapply swf_mono; eauto|exact H2]. Qed.
Lemma ktame_mono n m k : n <= m -> ktame n k -> ktame m k.
Proof.
  intros H [H1 H2]. split; [|exact H2]. destruct k; cbn [kgood] in *; auto; try lia.
  destruct H1. split; [eapply swf_mono; eauto|assumption].
Qed.
Lemma dtame_mono n m d : n <= m -> dtame n d -> dtame m d.
Proof. intros H [H1 H2]. split; [eapply ktame_mono|eapply sgood_mono]; eauto. Qed.
Lemma coll_tame_mono n m c : n <= m -> coll_tame n c -> coll_tame m c.
Proof.
  intros H. destruct c as [vs|vs k]; cbn [coll_tame].
  - apply Forall_impl. intros s. apply sgood_mono. exact H.
  - intros [H1 H2]. split; [eapply Forall_impl; [|exact H1]; intros d; apply dtame_mono; exact H|].
    destruct k; [eapply ktame_mono; eauto|exact I].
Qed.
Lemma stack_tame_mono n m st : n <= m -> Forall (coll_tame n) st -> Forall (coll_tame m) st.
Proof. intros H. apply Forall_impl. intros c. apply coll_tame_mono. exact H. Qed.
Lemma appended_len e e' : appended e e' -> lenZ (en_out e) <= lenZ (en_out e').
Proof. intros (bs & _ & -> & _). cbn [set_out en_out]. rewrite lenZ_app. pose proof (lenZ_nonneg bs). lia. Qed.
Lemma appended_tame e e' : tame e -> appended e e' -> tame e'.
Proof.
  intros [H1 H2 H3] A. pose proof (appended_len _ _ A) as Hl. destruct A as (bs & Hb & -> & He).
  constructor; [exact He| |]; cbn [set_out en_out en_stack] in *.
  - apply all_bytes_app. auto.
  - eapply stack_tame_mono; eauto.
Qed.
Lemma tame_below e : tame e -> below e.
Proof.
  intros [H1 H2 H3]. constructor; [exact H1|]. eapply Forall_impl; [|exact H3]. intros [vs|vs k]; cbn [coll_tame coll_below]; [auto|].
  assert (Hk : forall k, ktame (lenZ (en_out e)) k -> key_below (lenZ (en_out e)) k).
  { intros [s|i|s off] [K _]; cbn [kgood key_below] in *; auto; lia. }
  intros [K1 K2]. split; [eapply Forall_impl; [|exact K1]; intros d [Kd _]; auto|]. destruct k; auto.
Qed.

Lemma fix1_slot n q s : sgood n s -> n <= q -> q <= MAX_WIDE -> slot_ok (fix1 q s).
Proof.
  intros [[(b0 & b1 & -> & Hs)|(off & -> & Ho & _ & Hlt)] Hb] Hn Hq; unfold fix1.
  - rewrite scalar_not_ptr by exact Hs. split; [reflexivity|]. split; [exact Hb|]. rewrite scalar_not_ptr by exact Hs. discriminate.
  - rewrite is_ptr_mkptr, pointer_offset_mkptr by exact Ho. assert (Ho2 : 0 <= q - off <= MAX_WIDE) by lia.
    split; [unfold mkptr, lenZ; rewrite be_bytes_length; reflexivity|]. split; [apply be_bytes_bytes|].
    intros _. rewrite pointer_offset_mkptr; exact Ho2.
Qed.
Lemma ktame_sgood n k : n <= MAX_WIDE -> ktame n k -> sgood n (dk_sized k).
Proof.
  intros Hn [H1 H2]. destruct k as [s|i|s off]; cbn [kgood dk_sized] in *.
  - destruct H1. split; assumption.
  - destruct (dk_shared_swf n i H1) as (K1 & _). split; [exact K1|]. unfold new_narrow.
    repeat (constructor; [unfold is_byte; lia|]). constructor.
  - split; [|apply be_bytes_bytes]. right. exists off. repeat split; auto; try lia.
Qed.

Lemma write_slots_total c w : forall vs e, Forall slot_ok vs -> out_even e ->
  exists e', write_slots c e w vs = Ret e' /\ appended e e'.
Proof.
  induction vs as [|s vs IH]; intros e Hs He; cbn [write_slots].
  - exists e. split; [reflexivity|]. apply appended_refl. exact He.
  - inversion Hs as [|? ? H1 H2]; subst. destruct (write_slot_total c e s w H1 He) as (e1 & o & E & A).
    rewrite E. cbn [bind fst]. destruct (IH e1 H2) as (e2 & E2 & A2); [destruct A as (? & _ & _ & ?); assumption|].
    exists e2. split; [exact E2|]. eapply appended_trans; eauto.
Qed.
Lemma fixed_slots n w : 2 <= w <= 4 -> forall vs q, Forall (sgood n) vs -> n <= q -> q + lenZ vs * w <= MAX_WIDE -> Forall slot_ok (fixed w q vs).
Proof.
  intros Hw. induction vs as [|s vs IH]; intros q Hs Hn Hq; cbn [fixed]; [constructor|].
  inversion Hs as [|? ? H1 H2]; subst. rewrite lenZ_cons in Hq. pose proof (lenZ_nonneg vs).
  constructor; [eapply fix1_slot; eauto; nia|]. apply IH; auto; nia.
Qed.
Lemma entries_total c w n : forall vs e q,
  Forall (dtame n) vs -> n <= q -> q + 2 * lenZ vs * width_of w <= MAX_WIDE -> out_even e ->
  exists e', write_entries c e w (fixed_d (width_of w) q vs) = Ret (e', Ok tt) /\ appended e e'.
Proof.
  assert (Hw2 : 2 <= width_of w <= 4) by (destruct w; cbn; lia).
  induction vs as [|d vs IH]; intros e q Hs Hn Hq He; cbn [fixed_d write_entries].
  - exists e. split; [reflexivity|]. apply appended_refl. exact He.
  - inversion Hs as [|? ? [Hk Hv] Hr]; subst. rewrite lenZ_cons in Hq. pose proof (lenZ_nonneg vs). cbn [de_key de_val].
    rewrite (dictkey_sized_fixk n q) by (apply Hk || nia). cbn [bind].
    destruct (write_slot_total c e (fix1 q (dk_sized (de_key d))) w) as (e1 & o1 & E1 & A1).
    { apply (fix1_slot n); [apply ktame_sgood; [nia|exact Hk]|lia|nia]. }
    { exact He. }
    rewrite E1. cbn [bind fst].
    destruct (write_slot_total c e1 (fix1 (q + width_of w) (de_val d)) w) as (e2 & o2 & E2 & A2).
    { apply (fix1_slot n); [exact Hv|lia|nia]. }
    { destruct A1 as (? & _ & _ & ?); assumption. }
    rewrite E2. cbn [bind fst].
    destruct (IH e2 (q + 2 * width_of w)) as (e3 & E3 & A3); auto; try nia.
    { destruct A2 as (? & _ & _ & ?); assumption. }
    exists e3. split; [exact E3|]. eapply appended_trans; [exact A1|]. eapply appended_trans; eauto.
Qed.

(* ---------- values ---------- *)

Lemma sized_tame v s n : wf_enc v -> to_sized_value v = Some s -> sgood n s.
Proof.
  assert (Hi : forall z, i16_to_sized z = Some s -> sgood n s).
  { intros z H. unfold i16_to_sized in H. destruct ((2047 <? z) || (z <? -2048)) eqn:E; [discriminate|]. injection H as <-.
    unfold TAG_SHORT. rewrite Z.lor_0_r, land_15. split.
    - left. eexists; eexists; split; [reflexivity|]. rewrite type_short by lia. reflexivity.
    - unfold new_narrow. repeat (constructor; [unfold is_byte; lia|]). constructor. }
  assert (Hu : forall z, 0 <= z -> u16_to_sized z = Some s -> sgood n s).
  { intros z Hz H. unfold u16_to_sized in H. destruct (2047 <? z) eqn:E; [discriminate|]. injection H as <-. split.
    - left. eexists; eexists; split; [reflexivity|]. rewrite type_short by lia. reflexivity.
    - unfold new_narrow. repeat (constructor; [unfold is_byte; lia|]). constructor. }
  assert (Hr : forall v, enc_ok v = true -> wf_enc v -> to_sized_value v = Some s -> sgood n s).
  { intros v' H1 H2 H3. destruct (sized_repr v' s H2 H1 H3) as (b0 & b1 & -> & Hr). split.
    - left. exists b0, b1. split; [reflexivity|]. eapply repr_scalar_byte; eauto.
    - apply repr_bytes in Hr. inversion Hr as [|? ? B0 Hr2]; subst. inversion Hr2; subst.
      repeat (apply Forall_cons; [first [assumption|unfold is_byte; lia]|]). constructor. }
  induction v as [t z|b|b|b| | |s0|s0| |w IH|s0|d k]; intros Hw H; try (apply Hr in H; [exact H|reflexivity|exact Hw]); try contradiction.
  - cbn [to_sized_value] in H. cbn [wf_enc] in Hw. destruct t; cbn [ity_min ity_max] in Hw.
    + eapply Hi; eauto.
    + eapply Hi; eauto.
    + rewrite i64_is_short_true in H. eapply Hi; eauto.
    + rewrite i64_is_short_true in H. eapply Hi; eauto.
    + rewrite i64_is_short_true in H. eapply Hi; eauto.
    + eapply Hu; [|exact H]. lia.
    + eapply Hu; [|exact H]. lia.
    + destruct (z <=? 2047); [|discriminate]. eapply Hu; [|exact H]. unfold wrap_u16, two16; lia.
    + destruct (z <=? 2047); [|discriminate]. eapply Hu; [|exact H]. unfold wrap_u16, two16; lia.
    + destruct (z <=? 2047); [|discriminate]. eapply Hu; [|exact H]. unfold wrap_u16, two16; lia.
  - apply IH; assumption.
Qed.

Lemma ctz_pos_divides p : (Zpos p) mod 2 ^ ctz_pos p = 0 /\ forall k, 0 <= k -> Zpos p mod 2 ^ k = 0 -> k <= ctz_pos p.
Proof.
  induction p as [p IH|p IH|]; cbn [ctz_pos].
  - split; [apply Z.mod_1_r|]. intros k Hk H. destruct (Z.eq_dec k 0) as [->|Hne]; [lia|].
    exfalso. replace k with (1 + (k - 1)) in H by lia. rewrite Z.pow_add_r in H by lia. change (2 ^ 1) with 2 in H.
    pose proof (Z.pow_pos_nonneg 2 (k - 1) ltac:(lia) ltac:(lia)).
    apply Z.mod_divide in H; [|lia]. destruct H as [q Hq]. assert (Zpos p~1 = 2 * (q * 2 ^ (k - 1))) by lia. lia.
  - destruct IH as [IH1 IH2]. assert (H0 : 0 <= ctz_pos p) by (clear; induction p; cbn [ctz_pos]; lia).
    assert (E2 : Zpos p~0 = 2 * Zpos p) by lia. split.
    + rewrite Z.pow_add_r by lia. change (2 ^ 1) with 2. rewrite E2. pose proof (Z.pow_pos_nonneg 2 (ctz_pos p) ltac:(lia) ltac:(lia)).
      rewrite Z.mul_mod_distr_l by lia. lia.
    + intros k Hk H. destruct (Z.eq_dec k 0) as [->|Hne]; [lia|].
      replace k with (1 + (k - 1)) in H by lia. rewrite Z.pow_add_r in H by lia. change (2 ^ 1) with 2 in H. rewrite E2 in H.
      pose proof (Z.pow_pos_nonneg 2 (k - 1) ltac:(lia) ltac:(lia)). rewrite Z.mul_mod_distr_l in H by lia.
      specialize (IH2 (k - 1) ltac:(lia) ltac:(lia)). lia.
  - split; [reflexivity|]. intros k Hk H. destruct (Z.eq_dec k 0) as [->|Hne]; [lia|].
    rewrite Z.mod_small in H; [lia|]. split; [lia|]. apply Z.pow_gt_1; lia.
Qed.
Lemma byte_count_zero z : 2047 < z < two64 -> (u64_fleece_size z - 1 =? 0) = (z mod 2 ^ 57 =? 0).
Proof.
  intros Hz. unfold u64_fleece_size. destruct (z <=? 2047) eqn:E; [lia|]. destruct z as [|p|p]; try lia. cbn [ctz64].
  destruct (ctz_pos_divides p) as [H1 H2]. pose proof (ctz_pos_le p 64 ltac:(unfold two64 in *; lia)).
  assert (0 <= ctz_pos p) by (clear; induction p; cbn [ctz_pos]; lia).
  destruct (Z.pos p mod 2 ^ 57 =? 0) eqn:Em.
  - specialize (H2 57 ltac:(lia) ltac:(lia)). lia.
  - destruct (Z.le_gt_cases 57 (ctz_pos p)) as [Hge|Hlt]; [|lia]. exfalso.
    replace (ctz_pos p) with (57 + (ctz_pos p - 57)) in H1 by lia. rewrite Z.pow_add_r in H1 by lia.
    pose proof (Z.pow_pos_nonneg 2 (ctz_pos p - 57) ltac:(lia) ltac:(lia)).
    apply Z.mod_divide in H1; [|nia]. destruct H1 as [q Hq].
    assert (Z.pos p mod 2 ^ 57 = 0) by (apply Z.mod_divide; [lia|]; exists (q * 2 ^ (ctz_pos p - 57)); lia). lia.
Qed.
Lemma lor24_byte k : is_byte (Z.lor (Z.lor TAG_INT FLAG_UNSIGNED_INT) (k mod 256)).
Proof.
  assert (E : ((0 <=? Z.lor 24 (k mod 256)) && (Z.lor 24 (k mod 256) <? 256))%bool = true).
  { apply (range_sweep (fun b => ((0 <=? Z.lor 24 b) && (Z.lor 24 b <? 256))%bool) 256); [reflexivity|lia]. }
  change (Z.lor TAG_INT FLAG_UNSIGNED_INT) with 24. unfold is_byte. lia.
Qed.
Lemma write_total dbg v : wf_enc v -> can_write dbg v = true -> to_sized_value v = None ->
  exists bs, write_to dbg v (fleece_size v) false = Ret (Some bs) /\ lenZ bs = fleece_size v /\ all_bytes bs.
Proof.
  assert (Hr : forall v, enc_ok v = true -> wf_enc v -> to_sized_value v = None ->
    exists bs, write_to dbg v (fleece_size v) false = Ret (Some bs) /\ lenZ bs = fleece_size v /\ all_bytes bs).
  { intros v' H1 H2 H3. destruct (write_repr dbg v' H2 H1 H3) as (bs & E1 & E2 & E3). apply repr_bytes in E3. eauto. }
  assert (Hi : forall z, -2048 <= z <= 2047 -> i16_to_sized z <> None).
  { intros z Hz. destruct (i16_sized z Hz) as (b0 & b1 & E & _). congruence. }
  assert (Hb : forall z, 2047 < z < two64 -> negb dbg || negb (z mod 2 ^ 57 =? 0) = true ->
    exists bs, write_u64 dbg z (u64_fleece_size z) false = Ret (Some bs) /\ lenZ bs = u64_fleece_size z /\ all_bytes bs).
  { intros z Hz Hd. unfold write_u64. destruct (z <=? 2047) eqn:E; [lia|]. unfold write_u64_big.
    destruct (u64_fleece_size z <? u64_fleece_size z) eqn:E1; [lia|]. pose proof (byte_count_zero z Hz) as Eb. rewrite Eb.
    destruct ((z mod 2 ^ 57 =? 0) && dbg) eqn:E2; [destruct dbg; lia|].
    eexists. split; [reflexivity|].
    assert (1 <= u64_fleece_size z).
    { unfold u64_fleece_size. rewrite E. destruct z as [|p|p]; try lia. cbn [ctz64]. pose proof (ctz_pos_le p 64 ltac:(unfold two64 in *; lia)). lia. }
    split; [rewrite lenZ_cons, le_bytes_lenZ; lia|]. constructor; [apply lor24_byte|apply le_bytes_bytes]. }
  induction v as [t z|b|b|b| | |s0|s0| |w IH|s0|d k]; intros Hw Hok H; try (apply Hr; [reflexivity|exact Hw|exact H]); try contradiction.
  - cbn [can_write] in Hok. cbn [wf_enc] in Hw. cbn [write_to fleece_size]. cbn [to_sized_value] in H.
    destruct t; cbn [ity_min ity_max] in Hw; unfold two32, two63 in Hw.
    + apply (Hr (EInt I8 z)); auto.
    + rewrite wrap_i16_id in Hok by lia. exfalso. apply (Hi z); [lia|exact H].
    + rewrite i64_is_short_true in H. exfalso. apply (Hi (wrap_i16 z)); [lia|exact H].
    + rewrite i64_is_short_true in H. exfalso. apply (Hi (wrap_i16 z)); [lia|exact H].
    + rewrite i64_is_short_true in H. exfalso. apply (Hi (wrap_i16 z)); [lia|exact H].
    + apply (Hr (EInt U8 z)); auto.
    + apply (Hr (EInt U16 z)); auto.
    + apply (Hr (EInt U32 z)); auto.
    + destruct (z <=? 2047) eqn:E; [destruct (u16_sized z) as (? & ? & E2 & _); [lia|]; rewrite wrap_u16_id in H by lia; congruence|].
      apply Hb; [lia|exact Hok].
    + destruct (z <=? 2047) eqn:E; [destruct (u16_sized z) as (? & ? & E2 & _); [lia|]; rewrite wrap_u16_id in H by lia; congruence|].
      apply Hb; [lia|exact Hok].
  - cbn [write_to fleece_size to_sized_value can_write wf_enc] in *. apply IH; assumption.
Qed.

(* ---------- the calls ---------- *)

Lemma push_key_tame e k : tame e -> ktame (lenZ (en_out e)) k -> tame (fst (push_key e k)).
Proof.
  intros [H1 H2 H3] Hk. unfold push_key. destruct (en_stack e) as [|[vs|vs [k2|]] st] eqn:Est; cbn [fst];
    try (constructor; [exact H1|exact H2|rewrite Est; exact H3]).
  inversion H3 as [|? ? K1 K2]; subst. destruct K1 as [K1 _]. constructor; cbn [set_stack en_out en_stack]; [exact H1|exact H2|].
  constructor; [split; assumption|exact K2].
Qed.
Lemma push_value_tame e s : tame e -> sgood (lenZ (en_out e)) s -> tame (fst (push_value e s)).
Proof.
  intros [H1 H2 H3] Hs. unfold push_value. destruct (en_stack e) as [|[vs|vs [k2|]] st] eqn:Est; cbn [fst];
    try (constructor; [exact H1|exact H2|rewrite Est; exact H3]); inversion H3 as [|? ? K1 K2]; subst.
  - constructor; cbn [set_stack en_out en_stack]; [exact H1|exact H2|]. constructor; [|exact K2].
    apply Forall_app. split; [exact K1|]. constructor; [exact Hs|constructor].
  - destruct K1 as [K1 K3]. constructor; cbn [set_stack en_out en_stack]; [exact H1|exact H2|]. constructor; [|exact K2].
    split; [|exact I]. apply Forall_app. split; [exact K1|]. constructor; [split; assumption|constructor].
Qed.
Lemma mkptr_sgood n off : 0 <= off < n -> off <= MAX_WIDE -> off mod 2 = 0 -> sgood n (mkptr off).
Proof. intros H1 H2 H3. split; [|apply be_bytes_bytes]. right. exists off. repeat split; auto; lia. Qed.
Lemma tame_sk e t : tame e -> tame (set_sk e t).
Proof. intros [H1 H2 H3]. constructor; assumption. Qed.
Lemma size_pos v : wf_enc v -> to_sized_value v = None -> 0 <= fleece_size v.
Proof. intros H _. apply wf_size. exact H. Qed.

Lemma key_pointer_total c e k : wf_enc (EStr k) -> to_sized_value (EStr k) = None -> tame e -> pot e + op_size (OpKey k) <= MAX_WIDE ->
  exists e' r, write_key_pointer c e k = Ret (e', r) /\ tame e'.
Proof.
  intros Hw Hs Ht Hp. destruct (write_total (c_dbg c) (EStr k) Hw eq_refl Hs) as (bs & E1 & E2 & E3).
  destruct (enc_write_total c e (EStr k) false false bs E1 E2 E3 (t_even e Ht)) as (e1 & E & A & Hl).
  unfold write_key_pointer. rewrite E. cbn [bind]. pose proof (appended_tame _ _ Ht A) as Ht1.
  destruct (push_key e1 (DKPointer k (wrap_u32 (lenZ (en_out e))))) as [e2 r2] eqn:Ek.
  exists e2, r2. split; [reflexivity|]. change e2 with (fst (e2, r2)). rewrite <- Ek. apply push_key_tame; [exact Ht1|].
  pose proof (stack_pot_nonneg (en_stack e)). pose proof (lenZ_nonneg (en_out e)). pose proof (fleece_size_nonneg_str k).
  unfold pot in Hp. cbn [op_size] in Hp. rewrite wrap_u32_id by (unfold two32, MAX_WIDE in *; lia).
  apply bytes_sized_None in Hs. cbn [fleece_size] in *.
  assert (0 < lenZ bs) by (rewrite E2; unfold bytes_fleece_size; pose proof (varint_size_pos (lenZ k)); destruct Hw as (_ & ? & _); unfold two63, two64 in *; repeat destruct (_ <=? _); lia).
  split; [cbn [kgood]; lia|]. apply (t_even e Ht).
Qed.

Lemma key_total c e k : wf_enc (EStr k) -> tame e -> pot e + op_size (OpKey k) <= MAX_WIDE ->
  exists e' r, write_key c e k = Ret (e', r) /\ tame e'.
Proof.
  intros Hw Ht Hp. unfold write_key. destruct (to_sized_value (EStr k)) as [s|] eqn:Es.
  - destruct (push_key e (DKInline s)) as [e2 r2] eqn:Ek. exists e2, r2. split; [reflexivity|].
    change e2 with (fst (e2, r2)). rewrite <- Ek. apply push_key_tame; [exact Ht|].
    destruct (sized_tame _ _ (lenZ (en_out e)) Hw Es) as [S1 S2]. split; [|exact S2]. cbn [kgood]. split; [exact S1|].
    destruct (sized_repr (EStr k) s Hw eq_refl Es) as (b0 & b1 & -> & Hr). apply scalar_not_ptr. eapply repr_scalar_byte; eauto.
  - unfold write_key_long. destruct (en_sk e) as [t|]; [|apply key_pointer_total; assumption].
    destruct (en_stack e) as [|[vs|vs nk] st] eqn:Est; try (eexists; eexists; split; [reflexivity|exact Ht]).
    destruct (encode_and_insert (c_ua c) t k) as [t' [i|]] eqn:Ei.
    + destruct (push_key (set_sk e (Some t')) (DKShared i)) as [e2 r2] eqn:Ek. exists e2, r2. split; [reflexivity|].
      change e2 with (fst (e2, r2)). rewrite <- Ek. apply push_key_tame; [apply tame_sk; exact Ht|]. split; [|exact I].
      cbn [kgood]. unfold encode_and_insert, can_add, sk_len, MAX_KEYS in Ei.
      destruct (lenZ t <? 2048) eqn:E1; cbn [andb negb] in Ei; [|discriminate].
      destruct ((lenZ k <=? MAX_KEY_LEN) && can_encode (c_ua c) k); cbn [negb] in Ei; [|discriminate].
      pose proof (lenZ_nonneg t). destruct (sk_find (zstr_make k) 0 t) as [j|] eqn:Ef; injection Ei as <- <-; [|lia].
      apply sk_find_bounds in Ef. lia.
    + apply key_pointer_total; auto. apply tame_sk. exact Ht.
Qed.

Lemma value_total c e v : wf_enc v -> can_write (c_dbg c) v = true -> tame e -> pot e + op_size (OpValue v) <= MAX_WIDE ->
  exists e' r, write_value c e v = Ret (e', r) /\ tame e'.
Proof.
  intros Hw Hok Ht Hp. unfold write_value. destruct (en_stack e) as [|cc st] eqn:Est; [eexists; eexists; split; [reflexivity|exact Ht]|].
  destruct (to_sized_value v) as [s|] eqn:Es.
  - destruct (push_value e s) as [e2 r2] eqn:Ek. exists e2, r2. split; [reflexivity|].
    change e2 with (fst (e2, r2)). rewrite <- Ek. apply push_value_tame; [exact Ht|]. eapply sized_tame; eauto.
  - destruct (write_total (c_dbg c) v Hw Hok Es) as (bs & E1 & E2 & E3).
    destruct (enc_write_total c e v false false bs E1 E2 E3 (t_even e Ht)) as (e1 & E & A & Hl).
    rewrite E. cbn [bind]. pose proof (appended_tame _ _ Ht A) as Ht1.
    pose proof (stack_pot_nonneg (en_stack e)). pose proof (lenZ_nonneg (en_out e)). pose proof (wf_size v Hw).
    unfold pot in Hp. cbn [op_size] in Hp. rewrite wrap_u32_id by (unfold two32, MAX_WIDE in *; lia).
    rewrite new_pointer_ok by lia. destruct (push_value e1 (mkptr (lenZ (en_out e)))) as [e2 r2] eqn:Ek.
    exists e2, r2. split; [reflexivity|]. change e2 with (fst (e2, r2)). rewrite <- Ek. apply push_value_tame; [exact Ht1|].
    assert (0 < lenZ bs).
    { pose proof (lenZ_nonneg bs). destruct (Z.eq_dec (lenZ bs) 0) as [E0|]; [|lia]. exfalso.
      rewrite E2 in E0. clear - E0 Hw Es. induction v as [t z|b|b|b| | |s|s| |w IH|s|d n]; cbn [fleece_size wf_enc to_sized_value] in *; try discriminate; try contradiction; auto.
      - unfold i64_fleece_size in E0. rewrite i64_is_short_true in E0.
        destruct t; try discriminate; unfold u64_fleece_size in E0; (destruct (z <=? 2047) eqn:E; [discriminate|]); cbn [ity_min ity_max] in Hw;
          (destruct z as [|p|p]; try lia); cbn [ctz64] in E0; pose proof (ctz_pos_le p 64 ltac:(unfold two64, two32 in *; lia)); lia.
      - apply bytes_sized_None in Es. unfold bytes_fleece_size in E0. destruct Hw as (_ & ? & _). pose proof (varint_size_pos (lenZ s)). unfold two63, two64 in *. repeat destruct (_ <=? _); lia.
      - apply bytes_sized_None in Es. unfold bytes_fleece_size in E0. destruct Hw as (_ & ?). pose proof (varint_size_pos (lenZ s)). unfold two63, two64 in *. repeat destruct (_ <=? _); lia. }
    apply mkptr_sgood; [lia|lia|apply (t_even e Ht)].
Qed.

Lemma app_inv_len {A} (a b c d : list A) : length a = length c -> a ++ b = c ++ d -> a = c /\ b = d.
Proof.
  revert c. induction a as [|x a IH]; intros [|y c] Hl H; cbn [length app] in *; try discriminate; [auto|].
  injection H as -> H. injection Hl as Hl. destruct (IH c Hl H) as [-> ->]. auto.
Qed.
Lemma hdr_bytes_ok (is_dict : bool) n w : 0 <= n < two63 -> all_bytes (hdr_bytes (if is_dict then 112 else 96) n w).
Proof.
  intros Hn. unfold hdr_bytes. constructor; [destruct is_dict, w; unfold is_byte; lia|]. constructor; [unfold is_byte; lia|].
  destruct (2047 <=? n); [|constructor]. apply varint_write_bytes; unfold two63, two64 in *; lia.
Qed.
Lemma hdr_total c e (is_dict : bool) n w : out_even e -> 0 <= n < two63 ->
  exists e', enc_write c e (EHdr is_dict n) w true = Ret (e', wrap_u32 (lenZ (en_out e))) /\ appended e e' /\
    lenZ (en_out e') = lenZ (en_out e) + hdr_size n.
Proof.
  intros He Hn. destruct (enc_write_hdr c e is_dict n w He Hn) as (pad & E & Hl).
  pose proof (enc_write_grown _ _ _ _ _ _ _ E) as [(_ & _ & _ & _ & G5) _].
  eexists. split; [exact E|]. split; [|cbn [set_out en_out]; rewrite lenZ_app, Hl; reflexivity].
  exists (hdr_bytes (if is_dict then 112 else 96) n w ++ pad). split; [|split; [reflexivity|exact (G5 He)]].
  apply all_bytes_app. split; [apply hdr_bytes_ok; exact Hn|].
  (* the padding *)
  unfold enc_write in E. cbn [fleece_size negb] in E. rewrite andb_false_r in E.
  assert (Hp : pad = [] \/ pad = [0]).
  { assert (Hw : exists bs, write_to (c_dbg c) (EHdr is_dict n) (hdr_fleece_size n) w = Ret (Some bs) /\
      pad_even (en_out e ++ bs) = en_out e ++ hdr_bytes (if is_dict then 112 else 96) n w ++ pad /\ lenZ bs = hdr_fleece_size n).
    { destruct (write_to _ _ _ _) as [[bs|]| | |]; try discriminate. cbn [bind] in E. destruct (lenZ bs =? hdr_fleece_size n) eqn:El; [|discriminate].
      exists bs. split; [reflexivity|]. split; [|lia]. apply Ret_inj in E. apply (f_equal fst) in E. cbn [fst] in E. apply (f_equal en_out) in E. exact E. }
    destruct Hw as (bs & _ & Hq & Hlb). rewrite pad_even_app in Hq by exact He. apply app_inv_head in Hq.
    unfold pad_even in Hq. pose proof (hdr_bytes_len (if is_dict then 112 else 96) n w ltac:(unfold two63, two64 in *; lia)) as Hlh.
    assert (Hleq : length (hdr_bytes (if is_dict then 112 else 96) n w) = length bs) by (unfold hdr_fleece_size, VARINT_COUNT, lenZ in *; lia).
    destruct (lenZ bs mod 2 =? 0).
    - left. rewrite <- (app_nil_r bs) in Hq. destruct (app_inv_len _ _ _ _ (eq_sym Hleq) Hq) as [_ Hx]. symmetry. exact Hx.
    - right. destruct (app_inv_len _ _ _ _ (eq_sym Hleq) Hq) as [_ Hx]. symmetry. exact Hx. }
  destruct Hp as [-> | ->]; [constructor|]. constructor; [unfold is_byte; lia|constructor].
Qed.

(** Writing the slot that refers to position [p] from the end of the output. *)
Lemma write_mkptr c e w off : 0 <= off <= MAX_WIDE -> (w = true \/ off <= MAX_NARROW) -> out_even e -> 
  enc_write c e (ESized (mkptr off)) w false = Ret (set_out e (en_out e ++ ptr_bytes w off), wrap_u32 (lenZ (en_out e))).
Proof.
  intros Ho Hw He. destruct (write_ptr w off Ho Hw) as (E1 & E2 & E3). unfold enc_write. cbn [fleece_size negb write_to]. rewrite andb_true_r.
  assert (En : (if w then Z.max (sized_fleece_size (mkptr off)) 4 else sized_fleece_size (mkptr off)) = width_of w).
  { destruct w; cbn [width_of] in *; [lia|auto]. }
  rewrite En, E1. cbn [bind]. rewrite ptr_bytes_len, Z.eqb_refl. rewrite pad_even_app by exact He.
  rewrite pad_even_even by (rewrite ptr_bytes_len; destruct w; reflexivity). reflexivity.
Qed.
Lemma finished_total c e p :
  tame e -> 0 <= p < lenZ (en_out e) -> p mod 2 = 0 -> lenZ (en_out e) <= MAX_WIDE ->
  exists e', finished_collection c e p = Ret (e', Ok tt) /\ tame e' /\
    (en_stack e = [] -> en_out e' = en_out e ++ root_tail (lenZ (en_out e) - p) /\ en_stack e' = [] /\ en_closed e' = true).
Proof.
  intros Ht Hp Hpe Hm. pose proof Ht as [H1 H2 H3]. unfold finished_collection. destruct (en_stack e) as [|top st] eqn:Est.
  - rewrite wrap_u32_id by (unfold two32, MAX_WIDE in *; lia). unfold u32_sub. destruct (p <=? lenZ (en_out e)) eqn:Ep; [|lia]. cbn [bind].
    set (off := lenZ (en_out e) - p) in *. assert (Ho : 0 <= off <= MAX_WIDE) by (unfold off; lia).
    rewrite (new_pointer_ok off Ho). unfold root_tail. destruct (off <=? MAX_NARROW) eqn:En.
    + rewrite write_mkptr; [|exact Ho|right; lia|exact H1]. cbn [bind fst]. eexists. split; [reflexivity|].
      split; [|cbn [set_closed set_out en_out en_stack en_closed]; auto].
      constructor; cbn [set_closed set_out en_out en_stack].
      * unfold out_even in *. cbn [set_closed set_out en_out]. rewrite lenZ_app, ptr_bytes_len. cbn [width_of]. lia.
      * apply all_bytes_app. split; [exact H2|apply be_bytes_bytes].
      * rewrite Est. constructor.
    + rewrite write_mkptr; [|exact Ho|left; reflexivity|exact H1]. cbn [bind fst]. rewrite new_pointer_ok by (unfold MAX_WIDE; lia).
      assert (He2 : out_even (set_out e (en_out e ++ ptr_bytes true off))).
      { unfold out_even in *. cbn [set_out en_out]. rewrite lenZ_app, ptr_bytes_len. cbn [width_of]. lia. }
      rewrite write_mkptr; [|unfold MAX_WIDE; lia|right; unfold MAX_NARROW; lia|exact He2]. cbn [bind fst]. eexists. split; [reflexivity|].
      split; [|cbn [set_closed set_out en_out en_stack en_closed]; rewrite <- app_assoc; auto].
      constructor; cbn [set_closed set_out en_out en_stack].
      * unfold out_even in *. cbn [set_closed set_out en_out] in *. rewrite lenZ_app, ptr_bytes_len. cbn [width_of]. lia.
      * apply all_bytes_app. split; [apply all_bytes_app; split; [exact H2|apply be_bytes_bytes]|apply be_bytes_bytes].
      * rewrite Est. constructor.
  - rewrite new_pointer_ok by lia. inversion H3 as [|? ? K1 K2]; subst.
    assert (Hg : sgood (lenZ (en_out e)) (mkptr p)) by (apply mkptr_sgood; [lia|lia|exact Hpe]).
    destruct top as [vs|vs [k|]]; (eexists; split; [reflexivity|]); (split; [|discriminate]).
    + constructor; cbn [set_stack en_out en_stack]; [exact H1|exact H2|]. constructor; [|exact K2].
      apply Forall_app. split; [exact K1|]. constructor; [exact Hg|constructor].
    + destruct K1 as [K1 K3]. constructor; cbn [set_stack en_out en_stack]; [exact H1|exact H2|]. constructor; [|exact K2].
      split; [|exact I]. apply Forall_app. split; [exact K1|]. constructor; [split; assumption|constructor].
    + exact Ht.
Qed.

(** The document ends with a pointer to a collection. *)
Definition root_at (is_dict : bool) (e : enc) : Prop :=
  en_stack e = [] /\ en_closed e = true /\
  exists D0 p n w, en_out e = D0 ++ root_tail (lenZ D0 - p) /\ 0 <= p < lenZ D0 /\ p mod 2 = 0 /\ lenZ D0 mod 2 = 0 /\
    lenZ D0 - p <= MAX_WIDE /\ 0 <= n < two63 /\ hdr_size n <= lenZ D0 - p /\
    holds D0 p (hdr_bytes (if is_dict then 112 else 96) n w).

Lemma end_array_total c e vs st : tame e -> pot e <= MAX_WIDE -> en_stack e = CArr vs :: st ->
  exists e', end_array c e = Ret (e', Ok tt) /\ tame e' /\ (st = [] -> root_at false e').
Proof.
  intros Ht Hp Est. pose proof Ht as [H1 H2 H3]. unfold end_array, pot in *. rewrite Est in *. cbn [stack_pop stack_pot coll_slots set_stack en_out] in *.
  inversion H3 as [|? ? K1 K2]; subst. pose proof (stack_pot_nonneg st). pose proof (lenZ_nonneg vs). pose proof (lenZ_nonneg (en_out e)).
  cbn [coll_tame] in K1. set (n := lenZ (en_out e)) in *.
  assert (Hsw : Forall (swf n) vs) by (eapply Forall_impl; [|exact K1]; intros s [Hs _]; exact Hs).
  destruct (array_wide_total (c_dbg c) n vs) as [w Ew]; [unfold two32, MAX_WIDE in *; lia|exact Hsw|]. rewrite Ew. cbn [bind].
  assert (Ht0 : tame (set_stack e st)) by (constructor; assumption).
  destruct (hdr_total c (set_stack e st) false (lenZ vs) w) as (e1 & E1 & A1 & L1); [exact H1|unfold two63, MAX_WIDE in *; lia|].
  rewrite E1. cbn [bind]. cbn [set_stack en_out] in L1. fold n in L1.
  destruct (hdr_size_bounds (lenZ vs)) as [Hh1 Hh2]; [unfold two64, MAX_WIDE in *; lia|].
  assert (Hw2 : 2 <= width_of w <= 4) by (destruct w; cbn; lia).
  rewrite wrap_u32_id by (unfold two32, MAX_WIDE in *; lia).
  rewrite (fix_array_ok (c_dbg c) w n vs) by (try exact Hsw; rewrite ?L1; unfold MAX_WIDE in *; nia). cbn [bind].
  pose proof (appended_tame _ _ Ht0 A1) as Ht1.
  destruct (write_slots_total c w (fixed (width_of w) (lenZ (en_out e1)) vs) e1) as (e2 & E2 & A2).
  { apply (fixed_slots n); auto; rewrite ?L1; unfold MAX_WIDE in *; nia. }
  { apply Ht1. }
  rewrite E2. cbn [bind]. pose proof (appended_tame _ _ Ht1 A2) as Ht2.
  change (lenZ (en_out (set_stack e st))) with n. rewrite wrap_u32_id by (unfold two32, MAX_WIDE in *; lia).
  pose proof (appended_len _ _ A2) as La.
  pose proof (slots_len _ _ _ _ _ E2 (t_even _ Ht1)) as (_ & _ & Ls).
  assert (Lf : lenZ (fixed (width_of w) (lenZ (en_out e1)) vs) = lenZ vs) by (eapply fix_array_length; apply (fix_array_ok (c_dbg c) w n vs); try exact Hsw; rewrite ?L1; unfold MAX_WIDE in *; nia).
  destruct (finished_total c e2 n) as (e3 & E3 & Ht3 & Hr); [exact Ht2|lia|exact H1|unfold MAX_WIDE in *; lia|].
  exists e3. split; [exact E3|]. split; [exact Ht3|]. intros ->.
  assert (Hs2 : en_stack e2 = []).
  { destruct A1 as (? & _ & -> & _), A2 as (? & _ & -> & _). reflexivity. }
  destruct (Hr Hs2) as (R1 & R2 & R3). split; [exact R2|]. split; [exact R3|].
  exists (en_out e2), n, (lenZ vs), w. split; [exact R1|]. split; [lia|]. split; [exact H1|]. split; [apply Ht2|].
  split; [unfold MAX_WIDE in *; lia|]. split; [unfold two63, MAX_WIDE in *; lia|]. split; [lia|].
  destruct (enc_write_hdr c (set_stack e []) false (lenZ vs) w H1) as (pad & Eh & _); [unfold two63, MAX_WIDE in *; lia|].
  rewrite E1 in Eh. apply Ret_inj in Eh. apply (f_equal fst) in Eh. cbn [fst] in Eh. destruct A2 as (bs & _ & -> & _). rewrite Eh. cbn [set_out set_stack en_out].
  exists (en_out e), (pad ++ bs). split; [rewrite <- !app_assoc; reflexivity|reflexivity].
Qed.

Lemma end_dict_total c e vs st : sort_ok (c_sort c) -> tame e -> pot e <= MAX_WIDE -> en_stack e = CDict vs None :: st ->
  exists e', end_dict c e = Ret (e', Ok tt) /\ tame e' /\ (st = [] -> root_at true e').
Proof.
  intros Hso Ht Hp Est. pose proof Ht as [H1 H2 H3]. unfold end_dict, pot in *. rewrite Est in *. cbn [stack_pot coll_slots set_stack en_out] in *.
  inversion H3 as [|? ? K1 K2]; subst. destruct K1 as [K1 _]. pose proof (stack_pot_nonneg st). pose proof (lenZ_nonneg vs). pose proof (lenZ_nonneg (en_out e)).
  set (n := lenZ (en_out e)) in *.
  assert (Hkg : forall l, Forall (dtame n) l -> Forall (fun d => kgood n (de_key d) /\ swf n (de_val d)) l).
  { intros l. apply Forall_impl. intros d [[Hk _] [Hv _]]. auto. }
  destruct (dict_wide_total (c_dbg c) n ltac:(unfold two32, MAX_WIDE in *; lia) vs n) as [w Ew]; [lia|apply Hkg; exact K1|]. rewrite Ew. cbn [bind].
  assert (Ht0 : tame (set_stack e st)) by (constructor; assumption).
  destruct (hdr_total c (set_stack e st) true (lenZ vs) w) as (e1 & E1 & A1 & L1); [exact H1|unfold two63, MAX_WIDE in *; lia|].
  rewrite E1. cbn [bind]. cbn [set_stack en_out] in L1. fold n in L1.
  destruct (hdr_size_bounds (lenZ vs)) as [Hh1 Hh2]; [unfold two64, MAX_WIDE in *; lia|].
  assert (Hw2 : 2 <= width_of w <= 4) by (destruct w; cbn; lia).
  destruct (Hso vs) as [Hperm _]. pose proof (Permutation_lenZ _ _ Hperm) as Hpl.
  assert (K1s : Forall (dtame n) (c_sort c vs)) by (eapply Permutation_Forall; eauto).
  rewrite wrap_u32_id by (unfold two32, MAX_WIDE in *; lia).
  rewrite (fix_dict_ok (c_dbg c) w n) by (try (apply Hkg; exact K1s); rewrite ?L1, <- ?Hpl; unfold MAX_WIDE in *; nia). cbn [bind].
  pose proof (appended_tame _ _ Ht0 A1) as Ht1.
  destruct (entries_total c w n (c_sort c vs) e1 (lenZ (en_out e1))) as (e2 & E2 & A2); auto; try (rewrite ?L1, <- ?Hpl; unfold MAX_WIDE in *; nia).
  { apply Ht1. }
  unfold eseq. rewrite E2. cbn [bind fst snd]. pose proof (appended_tame _ _ Ht1 A2) as Ht2.
  change (lenZ (en_out (set_stack e st))) with n. rewrite wrap_u32_id by (unfold two32, MAX_WIDE in *; lia).
  pose proof (appended_len _ _ A2) as La.
  assert (Hfd : fix_dict_pointers (c_dbg c) (lenZ (en_out e1)) (width_of w) (c_sort c vs) = Ret (fixed_d (width_of w) (lenZ (en_out e1)) (c_sort c vs))).
  { apply (fix_dict_ok (c_dbg c) w n); try (apply Hkg; exact K1s); rewrite ?L1, <- ?Hpl; unfold MAX_WIDE in *; nia. }
  apply fix_dict_near in Hfd as [Lf Hnear]; [|lia|lia|rewrite L1, <- Hpl; unfold MAX_WIDE in *; nia|].
  2:{ eapply Forall_impl; [|exact K1s]. intros d [[Hk _] _]. destruct (de_key d); cbn [kgood key_below] in *; auto. lia. }
  pose proof (entries_len _ _ _ _ _ _ E2 (t_even _ Ht1) Hnear) as (_ & _ & _ & Ls).
  destruct (finished_total c e2 n) as (e3 & E3 & Ht3 & Hr); [exact Ht2|lia|exact H1|unfold MAX_WIDE in *; lia|].
  exists e3. split; [exact E3|]. split; [exact Ht3|]. intros ->.
  assert (Hs2 : en_stack e2 = []).
  { destruct A1 as (? & _ & -> & _), A2 as (? & _ & -> & _). reflexivity. }
  destruct (Hr Hs2) as (R1 & R2 & R3). split; [exact R2|]. split; [exact R3|].
  exists (en_out e2), n, (lenZ vs), w. split; [exact R1|]. split; [lia|]. split; [exact H1|]. split; [apply Ht2|].
  split; [unfold MAX_WIDE in *; lia|]. split; [unfold two63, MAX_WIDE in *; lia|]. split; [lia|].
  destruct (enc_write_hdr c (set_stack e []) true (lenZ vs) w H1) as (pad & Eh & _); [unfold two63, MAX_WIDE in *; lia|].
  rewrite E1 in Eh. apply Ret_inj in Eh. apply (f_equal fst) in Eh. cbn [fst] in Eh. destruct A2 as (bs & _ & -> & _). rewrite Eh. cbn [set_out set_stack en_out].
  exists (en_out e), (pad ++ bs). split; [rewrite <- !app_assoc; reflexivity|reflexivity].
Qed.

Lemma step_total c e o : sort_ok (c_sort c) -> tame e -> answered_op (c_dbg c) o -> pot e + op_size o <= MAX_WIDE ->
  exists e' r, enc_step c e o = Ret (e', r) /\ tame e'.
Proof.
  intros Hs Ht Ho Hp. pose proof Ht as [H1 H2 H3]. destruct o as [k|v|n| | | |t]; cbn [enc_step answered_op] in *.
  - apply key_total; assumption.
  - destruct Ho. apply value_total; assumption.
  - unfold begin_array. destruct (en_closed e); [eauto|]. destruct (top_waits_for_key (en_stack e)); [eauto|].
    destruct (two63 <=? n * 4) eqn:E; [lia|]. eexists; eexists; split; [reflexivity|]. constructor; cbn [set_stack en_out en_stack]; auto.
    constructor; [constructor|exact H3].
  - cbn [op_size] in Hp. rewrite Z.add_0_r in Hp. destruct (en_stack e) as [|[vs|vs [k|]] st] eqn:Est.
    + unfold end_array. rewrite Est. cbn [stack_pop]. eexists; eexists; split; [reflexivity|]. constructor; auto.
    + destruct (end_array_total c e vs st Ht Hp Est) as (e' & E & Ht' & _). eauto.
    + unfold end_array. rewrite Est. cbn [stack_pop]. eexists; eexists; split; [reflexivity|]. constructor; auto.
    + unfold end_array. rewrite Est. cbn [stack_pop]. eexists; eexists; split; [reflexivity|]. constructor; auto; inversion H3; assumption.
  - unfold begin_dict. destruct (en_closed e); [eauto|]. destruct (top_waits_for_key (en_stack e)); [eauto|].
    eexists; eexists; split; [reflexivity|]. constructor; cbn [set_stack en_out en_stack]; auto.
    constructor; [split; [constructor|exact I]|exact H3].
  - cbn [op_size] in Hp. rewrite Z.add_0_r in Hp. destruct (en_stack e) as [|[vs|vs [k|]] st] eqn:Est;
      try (unfold end_dict; rewrite Est; eexists; eexists; split; [reflexivity|exact Ht]).
    destruct (end_dict_total c e vs st Hs Ht Hp Est) as (e' & E & Ht' & _). eauto.
  - eexists; eexists; split; [reflexivity|]. apply tame_sk. exact Ht.
Qed.
Lemma answered_written dbg o : answered_op dbg o -> written_op o.
Proof. destruct o; cbn [answered_op written_op]; tauto. Qed.

Lemma run_total c : sort_ok (c_sort c) -> forall ops e, tame e -> Forall (answered_op (c_dbg c)) ops -> pot e + ops_size ops <= MAX_WIDE ->
  exists e' rs, enc_run c e ops = Ret (e', rs) /\ tame e' /\ pot e' <= pot e + ops_size ops.
Proof.
  intros Hs. induction ops as [|o ops IH]; intros e Ht Ho Hp; cbn [enc_run ops_size fold_right] in *.
  - eexists; eexists; split; [reflexivity|]. split; [exact Ht|lia].
  - fold (ops_size ops) in *. inversion Ho as [|? ? O1 O2]; subst. pose proof (answered_written _ _ O1) as W1. pose proof (written_size _ W1).
    pose proof (ops_size_nonneg ops). assert (Forall written_op ops) by (eapply Forall_impl; [|exact O2]; intros x; apply answered_written).
    destruct (step_total c e o Hs Ht O1) as (e1 & r1 & E1 & Ht1); [lia|]. rewrite E1. cbn [bind fst snd].
    destruct (step_below c e o e1 r1 Hs E1 (tame_below e Ht) W1) as (_ & _ & Hp1); [lia|].
    destruct (IH e1 Ht1 O2) as (e2 & rs & E2 & Ht2 & Hp2); [lia|]. rewrite E2. cbn [bind fst snd].
    eexists; eexists; split; [reflexivity|]. split; [exact Ht2|lia].
Qed.
Lemma forget_tame e : tame e -> tame (forget_key e) /\ pot (forget_key e) <= pot e /\ en_out (forget_key e) = en_out e.
Proof.
  intros Ht. pose proof Ht as [H1 H2 H3]. unfold forget_key, pot. destruct (en_stack e) as [|[vs|vs [k|]] st] eqn:Est; try (rewrite ?Est; split; [exact Ht|split; [lia|reflexivity]]).
  cbn [set_stack en_out en_stack stack_pot coll_slots]. split; [|split; [lia|reflexivity]].
  inversion H3 as [|? ? K1 K2]; subst. destruct K1 as [K1 _]. constructor; cbn [set_stack en_out en_stack]; auto. constructor; [split; auto|exact K2].
Qed.
Lemma finish_total c : sort_ok (c_sort c) -> forall n e, length (en_stack e) = n -> tame e -> pot e <= MAX_WIDE ->
  exists bs, finish c e = Ret bs /\ all_bytes bs /\ lenZ bs <= pot e /\ lenZ bs mod 2 = 0.
Proof.
  intros Hs. induction n as [|n IH]; intros e Hn Ht Hp; rewrite finish_unfold.
  - destruct (en_stack e) eqn:Est; [|discriminate]. eexists. split; [reflexivity|]. pose proof Ht as [H1 H2 H3]. split; [exact H2|]. unfold pot. rewrite Est. cbn [stack_pot]. split; [lia|exact H1].
  - destruct (en_stack e) as [|cc st] eqn:Est; [discriminate|]. destruct (forget_tame e Ht) as (Ht1 & Hp1 & _).
    assert (Ho : answered_op (c_dbg c) (end_of cc) /\ op_size (end_of cc) = 0) by (destruct cc; cbn; auto). destruct Ho as [Ho Hz].
    destruct (step_total c (forget_key e) (end_of cc) Hs Ht1 Ho) as (e1 & r1 & E1 & Ht2); [lia|]. rewrite E1. cbn [bind fst].
    pose proof (end_length c e cc st e1 r1 Est E1) as Hl. cbn [length] in Hn.
    destruct (step_below c _ _ e1 r1 Hs E1 (tame_below _ Ht1) (answered_written _ _ Ho)) as (_ & _ & Hp2); [lia|].
    destruct (IH e1) as (bs & E & Hb & Hl2 & Hev); [lia|exact Ht2|lia|]. exists bs. split; [exact E|]. split; [exact Hb|]. split; [lia|exact Hev].
Qed.

Lemma always_answers c prefix ops :
  sort_ok (c_sort c) -> lenZ prefix mod 2 = 0 -> all_bytes prefix ->
  Forall (answered_op (c_dbg c)) ops -> lenZ prefix + ops_size ops <= MAX_WIDE ->
  exists e' rs bs, enc_run c (enc_new_to_vec prefix) ops = Ret (e', rs) /\ ~ In (Err PointerTooLarge) rs /\
    (regulars b_init ops -> rs = snd (b_run b_init ops)) /\
    finish c e' = Ret bs /\ all_bytes bs /\ lenZ bs <= lenZ prefix + ops_size ops.
Proof.
  intros Hs Hev Hb Ho Hp.
  assert (Ht : tame (enc_new_to_vec prefix)) by (constructor; cbn [enc_new_to_vec en_out en_stack]; [exact Hev|exact Hb|constructor]).
  assert (Hpot : pot (enc_new_to_vec prefix) = lenZ prefix) by (unfold pot; cbn [enc_new_to_vec en_out en_stack stack_pot]; lia).
  destruct (run_total c Hs ops _ Ht Ho) as (e' & rs & E & Ht' & Hp'); [lia|].
  assert (Hn : ~ In (Err PointerTooLarge) rs).
  { eapply never_too_large; [exact Hs|exact Hev| |exact Hp|exact E]. eapply Forall_impl; [|exact Ho]. intros o. apply answered_written. }
  destruct (finish_total c Hs (length (en_stack e')) e' eq_refl Ht') as (bs & Ef & Hb' & Hl & _); [lia|].
  exists e', rs, bs. split; [exact E|]. split; [exact Hn|]. split; [intros Hr; eapply run_protocol; eauto|].
  split; [exact Ef|]. split; [exact Hb'|lia].
Qed.

(* ---------- and for the other values it never does ---------- *)

Lemma i64_loops z : i16_to_sized (wrap_i16 z) = None -> forall f b w, write_i64 f z b w = Diverge.
Proof.
  intros H f b w. revert z H. induction f as [|f IH]; intros z H; [reflexivity|]. cbn [write_i64]. rewrite i64_is_short_true. cbv zeta.
  unfold i16_to_sized in H. destruct ((2047 <? wrap_i16 z) || (wrap_i16 z <? -2048)) eqn:E; [|discriminate].
  apply IH. rewrite (wrap_i16_id (wrap_i16 z)) by (unfold wrap_i16, two16; lia). unfold i16_to_sized. rewrite E. reflexivity.
Qed.
Lemma not_writable c e v : wf_enc v -> can_write (c_dbg c) v = false -> en_stack e <> [] ->
  write_value c e v = Panic \/ write_value c e v = Diverge.
Proof.
  intros Hw Hn Hst. unfold write_value. destruct (en_stack e) as [|cc st]; [congruence|]. clear Hst.
  assert (H : to_sized_value v = None /\ (enc_write c e v false false = Panic \/ enc_write c e v false false = Diverge)).
  { assert (H : to_sized_value v = None /\ (write_to (c_dbg c) v (fleece_size v) false = Panic \/ write_to (c_dbg c) v (fleece_size v) false = Diverge \/
                 write_to (c_dbg c) v (fleece_size v) false = Ret None)).
    2:{ destruct H as [H1 H2]. split; [exact H1|]. unfold enc_write. cbn [andb]. destruct H2 as [-> | [-> | ->]]; cbn [bind]; auto. }
    assert (Hi : forall z, ((-2048 <=? wrap_i16 z) && (wrap_i16 z <=? 2047)) = false -> i16_to_sized (wrap_i16 z) = None).
    { intros z H. unfold i16_to_sized. destruct ((2047 <? wrap_i16 z) || (wrap_i16 z <? -2048)) eqn:E; [reflexivity|lia]. }
    induction v as [t z|b|b|b| | |s0|s0| |w IH|s0|d k]; cbn [can_write] in Hn; try discriminate.
    - cbn [wf_enc] in Hw. cbn [to_sized_value write_to fleece_size]. destruct t; cbn [ity_min ity_max] in Hw; try discriminate.
      + cbv zeta in Hn. apply Hi in Hn as Hd. rewrite wrap_i16_id in * by lia. split; [exact Hd|]. right; left.
        unfold write_i16. destruct ((2047 <? z) || (z <? -2048)) eqn:E; [|lia]. apply i64_loops. rewrite wrap_i16_id by lia. exact Hd.
      + cbv zeta in Hn. apply Hi in Hn as Hd. rewrite i64_is_short_true. split; [exact Hd|]. right; left. apply i64_loops. exact Hd.
      + cbv zeta in Hn. apply Hi in Hn as Hd. rewrite i64_is_short_true. split; [exact Hd|]. right; left. apply i64_loops. exact Hd.
      + cbv zeta in Hn. apply Hi in Hn as Hd. rewrite i64_is_short_true. split; [exact Hd|]. right; left. apply i64_loops. exact Hd.
      + unfold u16_to_sized, write_u16. destruct (2047 <? z) eqn:E; [|lia]. split; [reflexivity|].
        unfold write_u64_big. set (sz := u64_fleece_size z). destruct (2 <? sz) eqn:E2; [auto|].
        exfalso. unfold sz, u64_fleece_size in E2. destruct (z <=? 2047) eqn:E3; [lia|]. destruct z as [|p|p]; try lia. cbn [ctz64] in E2.
        pose proof (ctz_pos_le p 16 ltac:(lia)). lia.
      + destruct (z <=? 2047) eqn:E; [discriminate|]. cbn [orb] in Hn. split; [reflexivity|]. left. unfold write_u64. rewrite E. unfold write_u64_big.
        destruct (u64_fleece_size z <? u64_fleece_size z) eqn:E1; [lia|]. rewrite (byte_count_zero z) by (unfold two64 in *; lia).
        destruct (z mod 2 ^ 57 =? 0), (c_dbg c); try discriminate. reflexivity.
      + destruct (z <=? 2047) eqn:E; [discriminate|]. cbn [orb] in Hn. split; [reflexivity|]. left. unfold write_u64. rewrite E. unfold write_u64_big.
        destruct (u64_fleece_size z <? u64_fleece_size z) eqn:E1; [lia|]. rewrite (byte_count_zero z) by (unfold two64 in *; lia).
        destruct (z mod 2 ^ 57 =? 0), (c_dbg c); try discriminate. reflexivity.
    - apply IH; assumption. }
  destruct H as [-> [-> | ->]]; cbn [bind]; auto.
Qed.

(* ---------- as stated in Properties_Total ---------- *)

Lemma run_length c : forall ops e e' rs, enc_run c e ops = Ret (e', rs) -> length rs = length ops.
Proof.
  induction ops as [|o ops IH]; intros e e' rs H; cbn [enc_run] in H; [apply Ret_inj in H; injection H as _ <-; reflexivity|].
  destruct (enc_step c e o) as [[e1 r1]| | |]; try discriminate. cbn [bind fst snd] in H.
  destruct (enc_run c e1 ops) as [[e2 r2]| | |] eqn:E2; try discriminate. cbn [bind fst snd] in H. injection H as _ <-. cbn [length]. f_equal. eauto.
Qed.
Lemma answers_and_finishes c prefix ops :
  sort_ok (c_sort c) -> lenZ prefix mod 2 = 0 -> all_bytes prefix ->
  Forall (answered_op (c_dbg c)) ops -> lenZ prefix + ops_size ops <= MAX_WIDE ->
  exists e' rs bs, enc_run c (enc_new_to_vec prefix) ops = Ret (e', rs) /\ length rs = length ops /\
    finish c e' = Ret bs /\ all_bytes bs /\ lenZ bs <= lenZ prefix + ops_size ops.
Proof.
  intros Hs Hev Hb Ho Hsz. destruct (always_answers c prefix ops Hs Hev Hb Ho Hsz) as (e' & rs & bs & H1 & _ & _ & H2 & H3 & H4).
  exists e', rs, bs. split; [exact H1|]. split; [exact (run_length c ops _ _ _ H1)|]. auto.
Qed.
Lemma answers_protocol c prefix ops :
  sort_ok (c_sort c) -> lenZ prefix mod 2 = 0 -> all_bytes prefix ->
  Forall (answered_op (c_dbg c)) ops -> lenZ prefix + ops_size ops <= MAX_WIDE -> regulars b_init ops ->
  exists e', enc_run c (enc_new_to_vec prefix) ops = Ret (e', snd (b_run b_init ops)).
Proof.
  intros Hs Hev Hb Ho Hsz Hr. destruct (always_answers c prefix ops Hs Hev Hb Ho Hsz) as (e' & rs & bs & H1 & _ & H2 & _).
  exists e'. rewrite <- (H2 Hr). exact H1.
Qed.
Lemma too_large_only c prefix ops e' rs :
  sort_ok (c_sort c) -> lenZ prefix mod 2 = 0 -> Forall written_op ops ->
  enc_run c (enc_new_to_vec prefix) ops = Ret (e', rs) -> In (Err PointerTooLarge) rs ->
  MAX_WIDE < lenZ prefix + ops_size ops.
Proof.
  intros Hs Hev Hw Hr Hin. destruct (Z.lt_ge_cases MAX_WIDE (lenZ prefix + ops_size ops)) as [H|H]; [exact H|].
  destruct (never_too_large c prefix ops e' rs Hs Hev Hw H Hr Hin).
Qed.

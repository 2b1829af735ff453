(** Flat arrays of any size: what is read back is what [stored_value] says. *)
From Verif Require Import Prelude Lib Varint VarintProofs Utf8 Float SharedKeys
  Decode Read Encodable Encoder BuilderSpec Holds Repr EncodableProofs Stored StoredRead SlotProofs
  EncoderProofs EncoderInv EncoderClean EncoderProtocol Isort PathSpec Lookup Path ValueSpec Access.
From Coq Require Import ZifyBool ZifyNat ZifyN Sorted Permutation.
Ltac Zify.zify_post_hook ::= Z.div_mod_to_equations.
#[local] Existing Instance any_key.

(* ---------- single values ---------- *)

Definition wrote (v : encodable) (t : tree) : Prop :=
  (exists b0 b1, to_sized_value v = Some [b0; b1; 0; 0] /\ repr t [b0; b1]) \/
  (to_sized_value v = None /\ forall dbg, exists bs, write_to dbg v (fleece_size v) false = Ret (Some bs) /\
     lenZ bs = fleece_size v /\ repr t bs).

Lemma wrote_ok v : wf_enc v -> enc_ok v = true -> wrote v (tree_of v).
Proof.
  intros Hw Hok. destruct (to_sized_value v) as [s|] eqn:E.
  - left. destruct (sized_repr v s Hw Hok E) as (b0 & b1 & -> & H). eauto.
  - right. split; [exact E|]. intros dbg. exact (write_repr dbg v Hw Hok E).
Qed.

Lemma le_bytes_mod n : forall a b, a mod 256 ^ Z.of_nat n = b mod 256 ^ Z.of_nat n -> le_bytes n a = le_bytes n b.
Proof.
  induction n as [|n IH]; intros a b Hab; [reflexivity|]. cbn [le_bytes].
  assert (H0 : 0 < 256 ^ Z.of_nat n) by (apply Z.pow_pos_nonneg; lia).
  rewrite Nat2Z.inj_succ, Z.pow_succ_r in Hab by lia.
  rewrite !Z.rem_mul_r in Hab by lia. f_equal; [lia|]. apply IH. lia.
Qed.

Lemma wrote_u64 t z : t = U32 \/ t = U64 \/ t = Usize -> ity_min t <= z <= ity_max t -> 2047 < z ->
  0 < 8 - (ctz64 z + 7) / 8 -> wrote (EInt t z) (TInt (z mod 256 ^ (8 - (ctz64 z + 7) / 8))).
Proof.
  intros Ht Hr Hz Hk. set (k := 8 - (ctz64 z + 7) / 8) in *.
  assert (Hr' : 0 <= z < two64) by (destruct Ht as [-> | [-> | ->]]; cbn in Hr; unfold two32, two64 in *; lia).
  pose proof (ctz64_bound z 64 ltac:(unfold two64 in Hr'; change (2 ^ 64) with 18446744073709551616; lia) ltac:(lia)) as Hc.
  assert (Hk8 : 1 <= k <= 8) by (unfold k; lia).
  assert (Hn : to_sized_value (EInt t z) = None)
    by (destruct Ht as [-> | [-> | ->]]; cbn [to_sized_value]; destruct (z <=? 2047) eqn:E; [lia|reflexivity|lia|reflexivity|lia|reflexivity]).
  right. split; [exact Hn|]. intros dbg.
  assert (Hfs : fleece_size (EInt t z) = k + 1).
  { assert (u64_fleece_size z = k + 1) by (unfold u64_fleece_size; destruct (z <=? 2047) eqn:E; [lia|unfold k; lia]).
    destruct Ht as [-> | [-> | ->]]; assumption. }
  assert (Hw : write_to dbg (EInt t z) (fleece_size (EInt t z)) false =
    Ret (Some ((24 + (Z.of_nat (Z.to_nat k) - 1)) :: le_bytes (Z.to_nat k) (z mod 256 ^ k)))).
  { assert (write_u64 dbg z (k + 1) false = Ret (Some ((24 + (Z.of_nat (Z.to_nat k) - 1)) :: le_bytes (Z.to_nat k) (z mod 256 ^ k)))) as H.
    { unfold write_u64. destruct (z <=? 2047) eqn:E; [lia|]. unfold write_u64_big.
      assert (u64_fleece_size z = k + 1) as -> by (unfold u64_fleece_size; rewrite E; unfold k; lia).
      destruct (k + 1 <? k + 1) eqn:E1; [lia|]. replace (k + 1 - 1) with k by lia.
      destruct ((k =? 0) && dbg) eqn:E2; [lia|]. rewrite uint_header by lia. rewrite Z2Nat.id by lia.
      f_equal. f_equal. f_equal. 
      apply le_bytes_mod. rewrite Z2Nat.id by lia. rewrite Z.mod_mod; [reflexivity|].
      apply Z.pow_nonzero; lia. }
    rewrite Hfs. destruct Ht as [-> | [-> | ->]]; exact H. }
  eexists. split; [exact Hw|]. split.
  - rewrite lenZ_cons, le_bytes_lenZ, Hfs. lia.
  - apply repr_uint; [lia|]. rewrite Z2Nat.id by lia. apply Z.mod_pos_bound. apply Z.pow_pos_nonneg; lia.
Qed.

Lemma wrote_short v z s : -2048 <= z <= 2047 -> to_sized_value v = Some s ->
  i16_to_sized z = Some s \/ (0 <= z /\ u16_to_sized z = Some s) -> wrote v (TInt z).
Proof.
  intros Hz Hv Hs. left. destruct Hs as [Hs|[H0 Hs]].
  - destruct (i16_sized z Hz) as (b0 & b1 & E1 & E2). rewrite Hs in E1. injection E1 as ->. exists b0, b1. split; [exact Hv|].
    rewrite E2. apply repr_short. exact Hz.
  - destruct (u16_sized z ltac:(lia)) as (b0 & b1 & E1 & E2). rewrite Hs in E1. injection E1 as ->. exists b0, b1. split; [exact Hv|].
    rewrite E2. apply repr_short. exact Hz.
Qed.

(** What is written for a value is what [stored_value] says. *)
Lemma wrote_stored v t : wf_enc v -> stored_value v = Some t -> wrote v t.
Proof.
  intros Hw Hs.
  assert (Hsame : enc_ok v = true -> stored_value v = Some (tree_of v) -> wrote v t).
  { intros Hok H. rewrite Hs in H. injection H as ->. apply wrote_ok; assumption. }
  revert Hw Hs Hsame.
  induction v as [ty z|b|b|b| | |s0|s0| |w IH|s0|d n]; intros Hw Hs Hsame;
    try (apply Hsame; reflexivity).
  - clear Hsame. cbn [stored_value] in Hs.
    assert (Hsg : (ty = I8 \/ ty = I16 \/ ty = I32 \/ ty = I64 \/ ty = Isize) ->
      (let s := wrap_i16 z in if (-2048 <=? s) && (s <=? 2047) then Some (TInt s) else None) = Some t -> wrote (EInt ty z) t).
    { clear Hs. intros Ht Hs. cbv zeta in Hs. destruct ((-2048 <=? wrap_i16 z) && (wrap_i16 z <=? 2047)) eqn:E; [|discriminate].
      injection Hs as <-. destruct (i16_sized (wrap_i16 z) ltac:(lia)) as (b0 & b1 & E1 & _).
      eapply wrote_short; [lia| |left; exact E1]. cbn [wf_enc] in Hw.
      assert (Hid : ty = I8 \/ ty = I16 -> wrap_i16 z = z) by (intros [-> | ->]; cbn [ity_min ity_max] in Hw; apply wrap_i16_id; lia).
      destruct Ht as [-> | [-> | [-> | [-> | ->]]]]; cbn [to_sized_value];
        rewrite ?i64_is_short_true; try exact E1; rewrite (Hid ltac:(tauto)) in E1; exact E1. }
    assert (Hug : (ty = U32 \/ ty = U64 \/ ty = Usize) ->
      (if z <=? 2047 then Some (TInt z) else let k := 8 - (ctz64 z + 7) / 8 in
        if k <=? 0 then None else Some (TInt (z mod 256 ^ k))) = Some t -> wrote (EInt ty z) t).
    { clear Hs. intros Ht Hs. cbn [wf_enc] in Hw. destruct (z <=? 2047) eqn:E.
      - injection Hs as <-. assert (0 <= z) by (destruct Ht as [-> | [-> | ->]]; cbn in Hw; lia).
        destruct (u16_sized z ltac:(lia)) as (b0 & b1 & E1 & _).
        eapply wrote_short; [lia| |right; split; [lia|exact E1]].
        destruct Ht as [-> | [-> | ->]]; cbn [to_sized_value]; rewrite E, wrap_u16_id by lia; exact E1.
      - cbv zeta in Hs. destruct (8 - (ctz64 z + 7) / 8 <=? 0) eqn:E2; [discriminate|]. injection Hs as <-.
        apply wrote_u64; auto; lia. }
    destruct ty; try (apply Hsg; [tauto|exact Hs]); try (apply Hug; [tauto|exact Hs]).
    + destruct (z <=? 2047) eqn:E; [|discriminate]. injection Hs as <-. cbn [wf_enc ity_min ity_max] in Hw.
      destruct (u16_sized z ltac:(lia)) as (b0 & b1 & E1 & _).
      eapply wrote_short; [lia| |right; split; [lia|exact E1]]. exact E1.
    + destruct (z <=? 2047) eqn:E; [|discriminate]. injection Hs as <-. cbn [wf_enc ity_min ity_max] in Hw.
      destruct (u16_sized z ltac:(lia)) as (b0 & b1 & E1 & _).
      eapply wrote_short; [lia| |right; split; [lia|exact E1]]. exact E1.
  - cbn [wf_enc stored_value tree_of enc_ok] in *. exact (IH Hw Hs Hsame).
Qed.

Lemma stored_scalar v t : stored_value v = Some t -> is_coll t = false.
Proof.
  induction v as [ty z|b|b|b| | |s0|s0| |w IH|s0|d n]; cbn [stored_value tree_of]; intros H;
    try (injection H as <-; reflexivity); auto.
  destruct ty; repeat match type of H with context [if ?b then _ else _] => destruct b end;
    try discriminate; injection H as <-; reflexivity.
Qed.

(* ---------- arrays ---------- *)

Lemma wrote_outside v t : wrote v t -> 0 <= outside v.
Proof.
  unfold outside. intros [(b0 & b1 & -> & _)|[-> H]]; [lia|]. destruct (H true) as (bs & _ & <- & Hr). pose proof (repr_len _ _ Hr). lia.
Qed.
Lemma wrote_outside2 v t : wrote v t -> to_sized_value v = None -> 2 <= outside v.
Proof.
  unfold outside. intros [(b0 & b1 & -> & _)|[-> H]]; [discriminate|]. intros _. destruct (H true) as (bs & _ & <- & Hr). pose proof (repr_len _ _ Hr). lia.
Qed.
Lemma content_nonneg vs ts : Forall2 wrote vs ts -> 0 <= content vs.
Proof.
  induction 1 as [|v t vs ts Hv _ IH]; [cbn; lia|]. change (content (v :: vs)) with (outside v + content vs).
  pose proof (wrote_outside v t Hv). lia.
Qed.
Lemma content_even vs : content vs mod 2 = 0.
Proof.
  induction vs as [|v vs IH]; [reflexivity|]. change (content (v :: vs)) with (outside v + content vs).
  unfold outside. destruct (to_sized_value v); lia.
Qed.

(** The slots of the values [vs] when the output is [p] bytes long. *)
Fixpoint slots_of (p : Z) (vs : list encodable) : list sized :=
  match vs with
  | [] => []
  | v :: r =>
      match to_sized_value v with
      | Some s => s :: slots_of p r
      | None => mkptr p :: slots_of (p + outside v) r
      end
  end.

Lemma value_step c D sk ss l v t :
  wrote v t -> lenZ D mod 2 = 0 -> lenZ D <= MAX_WIDE -> Forall2 (srep D sk) ss l ->
  exists X, enc_step c (mk_enc D sk [CArr ss] false) (OpValue v) =
      Ret (mk_enc (D ++ X) sk [CArr (ss ++ slots_of (lenZ D) [v])] false, Ok tt) /\
    lenZ X = outside v /\ lenZ X mod 2 = 0 /\
    Forall2 (srep (D ++ X) sk) (ss ++ slots_of (lenZ D) [v]) (l ++ [t]).
Proof.
  intros Hv Hev Hmx Hss. cbn [enc_step slots_of]. unfold write_value. cbn [en_stack]. unfold outside.
  destruct Hv as [(b0 & b1 & Es & Hr)|[Es Hv]].
  - rewrite Es. exists []. rewrite app_nil_r. unfold push_value, set_stack. cbn [en_stack en_out en_sk en_closed].
    split; [reflexivity|]. split; [reflexivity|]. split; [reflexivity|].
    apply Forall2_app; [exact Hss|]. constructor; [|constructor]. apply sr_inline. exact Hr.
  - rewrite Es. destruct (Hv (c_dbg c)) as (bs & Hwr & Hl & Hr).
    exists (pad_even bs). unfold enc_write. cbn [andb en_out]. rewrite Hwr; cbn [bind].
    rewrite Hl, Z.eqb_refl. rewrite pad_even_app by exact Hev. pose proof (lenZ_nonneg D).
    rewrite wrap_u32_id by (unfold two32, MAX_WIDE in *; lia). cbn [bind].
    rewrite new_pointer_ok by lia. unfold push_value, set_stack, set_out. cbn [en_stack en_out en_sk en_closed].
    split; [reflexivity|].
    assert (Hlen : lenZ (pad_even bs) = fleece_size v + fleece_size v mod 2 /\ exists Y, pad_even bs = bs ++ Y).
    { unfold pad_even. rewrite Hl. destruct (fleece_size v mod 2 =? 0) eqn:E.
      - split; [lia|]. exists []. rewrite app_nil_r. reflexivity.
      - split; [rewrite lenZ_app, Hl; change (lenZ [0]) with 1; lia|]. exists [0]. reflexivity. }
    destruct Hlen as [Hlen [Y HY]]. split; [exact Hlen|]. split; [lia|].
    apply Forall2_app.
    + eapply Forall2_imp; [|exact Hss]. intros s0 t0. apply srep_mono.
    + constructor; [|constructor]. apply (sr_ptr _ _ t t (lenZ D) (lenZ D + lenZ bs)); [apply ts_refl| |lia].
      apply st_scalar; auto. rewrite HY. apply holds_end'. reflexivity.
Qed.

Lemma values_run c sk vs ts : Forall2 wrote vs ts -> forall D ss l,
  lenZ D mod 2 = 0 -> lenZ D + content vs <= MAX_WIDE -> Forall2 (srep D sk) ss l ->
  exists D', enc_run c (mk_enc D sk [CArr ss] false) (map OpValue vs) =
      Ret (mk_enc D' sk [CArr (ss ++ slots_of (lenZ D) vs)] false, map (fun _ => Ok tt) vs) /\
    lenZ D' = lenZ D + content vs /\ Forall2 (srep D' sk) (ss ++ slots_of (lenZ D) vs) (l ++ ts).
Proof.
  induction 1 as [|v t vs ts Hv Hvs IH]; intros D ss l Hev Hmx Hss; cbn [map enc_run].
  - exists D. cbn [slots_of]. rewrite !app_nil_r. split; [reflexivity|]. cbn. split; [lia|exact Hss].
  - change (content (v :: vs)) with (outside v + content vs) in *.
    pose proof (wrote_outside v t Hv). pose proof (content_nonneg vs ts Hvs).
    destruct (value_step c D sk ss l v t Hv Hev ltac:(lia) Hss) as (X & Hx & Hl & Hxe & Hs2). rewrite Hx. cbn [bind fst snd].
    destruct (IH (D ++ X) _ _ ltac:(rewrite lenZ_app; lia) ltac:(rewrite lenZ_app; lia) Hs2) as (D' & Hr & Hl' & Hs').
    rewrite Hr. cbn [bind fst snd]. rewrite <- !app_assoc in Hr, Hs'. rewrite <- !app_assoc. cbn [app] in Hs'.
    assert (Hsl : slots_of (lenZ D) [v] ++ slots_of (lenZ (D ++ X)) vs = slots_of (lenZ D) (v :: vs)).
    { cbn [slots_of]. rewrite lenZ_app, Hl. unfold outside. destruct (to_sized_value v); cbn [app]; [|reflexivity].
      rewrite Z.add_0_r. reflexivity. }
    rewrite Hsl in *. exists D'. split; [reflexivity|]. split; [rewrite lenZ_app in Hl'; lia|].
    rewrite <- app_assoc in Hs'. exact Hs'.
Qed.

Lemma slots_swf vs ts : Forall2 wrote vs ts -> forall p n, 0 <= p -> p mod 2 = 0 -> p + content vs <= n -> n <= MAX_WIDE ->
  Forall (swf n) (slots_of p vs).
Proof.
  induction 1 as [|v t vs ts Hv Hvs IH]; intros p n Hp Hev Hn Hmx; [constructor|].
  change (content (v :: vs)) with (outside v + content vs) in Hn.
  pose proof (wrote_outside v t Hv) as Ho. pose proof (content_nonneg vs ts Hvs) as Hc. pose proof (wrote_outside2 v t Hv) as H2.
  cbn [slots_of]. destruct Hv as [(b0 & b1 & Es & Hr)|[Es Hv]]; rewrite Es.
  - constructor; [|apply IH; lia].
    left. exists b0, b1. split; [reflexivity|]. eapply repr_scalar_byte; eauto.
  - specialize (H2 Es). assert (outside v mod 2 = 0) by (unfold outside; rewrite Es; lia). constructor; [|apply IH; lia].
    right. exists p. split; [reflexivity|]. lia.
Qed.
Lemma slots_clean vs ts : Forall2 wrote vs ts -> Forall wf_enc vs -> forallb no_short_text vs = true -> forall p, 0 <= p -> p + content vs <= MAX_WIDE ->
  Forall (sclean 0) (slots_of p vs).
Proof.
  induction 1 as [|v t vs ts Hv Hvs IH]; intros Hw Hn p Hp Hmx; [constructor|]. cbn [forallb] in Hn. apply andb_true_iff in Hn as [Hn1 Hn2].
  inversion Hw as [|? ? Hw1 Hw2]; subst.
  change (content (v :: vs)) with (outside v + content vs) in Hmx.
  pose proof (wrote_outside v t Hv) as Ho. pose proof (content_nonneg vs ts Hvs) as Hc.
  cbn [slots_of]. destruct Hv as [(b0 & b1 & Es & Hr)|[Es Hv]]; rewrite Es.
  - constructor; [|apply IH; auto; lia]. eapply sized_clean; eauto.
  - constructor; [|apply IH; auto; lia].
    apply (ptr_clean 0 p); try lia. rewrite new_pointer_ok by lia. reflexivity.
Qed.
Lemma slots_len vs : forall p, lenZ (slots_of p vs) = lenZ vs.
Proof. induction vs as [|v vs IH]; intros p; [reflexivity|]. cbn [slots_of]. destruct (to_sized_value v); rewrite !lenZ_cons, IH; reflexivity. Qed.

(** The first value stored outside is at the very start, so the width rule sees the whole. *)
Lemma slots_wide dbg vs ts n : Forall2 wrote vs ts -> 0 < content vs -> MAX_NARROW < n -> n < two32 ->
  array_should_be_wide dbg n (slots_of 0 vs) = Ret true.
Proof.
  intros Hv. induction Hv as [|v t vs ts Hv Hvs IH]; intros Hc Hn Hm; [cbn in Hc; lia|].
  change (content (v :: vs)) with (outside v + content vs) in Hc. cbn [slots_of].
  unfold outside in Hc at 1. destruct Hv as [(b0 & b1 & Es & Hr)|[Es Hv]]; rewrite Es in *; cbn [array_should_be_wide].
  - apply repr_scalar_byte in Hr.
    rewrite scalar_not_ptr by exact Hr. apply IH; lia.
  - rewrite is_ptr_mkptr by (unfold MAX_WIDE; lia). unfold actual_pointer_offset. rewrite pointer_offset_mkptr by (unfold MAX_WIDE; lia).
    unfold usize_sub. unfold MAX_NARROW in *. destruct (0 <=? n) eqn:E; [|lia]. cbn [bind]. rewrite wrap_u32_id by lia.
    destruct (16383 <? n - 0) eqn:E2; [reflexivity|lia].
Qed.

Lemma arr_fits_wide : forall vs q, arr_fits true q vs = true.
Proof. induction vs as [|s vs IH]; intros q; [reflexivity|]. cbn [arr_fits]. rewrite IH. reflexivity. Qed.
Lemma reach_fits vs ts : Forall2 wrote vs ts -> Forall wf_enc vs -> forallb no_short_text vs = true ->
  forall p q, 0 <= p -> p + content vs <= MAX_WIDE -> reach (q - p) vs = true -> arr_fits false q (slots_of p vs) = true.
Proof.
  induction 1 as [|v t vs ts Hv Hvs IH]; intros Hw Hn p q Hp Hmx Hr; [reflexivity|]. cbn [forallb] in Hn. apply andb_true_iff in Hn as [Hn1 Hn2].
  inversion Hw as [|? ? Hw1 Hw2]; subst.
  change (content (v :: vs)) with (outside v + content vs) in Hmx.
  pose proof (wrote_outside v t Hv) as Ho. pose proof (content_nonneg vs ts Hvs) as Hc.
  cbn [slots_of reach] in *. destruct Hv as [(b0 & b1 & Es & Hrp)|[Es Hv]]; rewrite Es in *; cbn [arr_fits]; apply andb_true_intro.
  - split; [|apply IH; auto; [lia|cbn [width_of]; replace (q + 2 - p) with (q - p + 2) by lia; exact Hr]].
    assert (Hcl : sclean 0 [b0; b1; 0; 0]) by (eapply sized_clean; eauto).
    apply repr_scalar_byte in Hrp. unfold slot_fits, sclean in *. rewrite scalar_not_ptr in * by exact Hrp. cbn [orb nth] in *. lia.
  - apply andb_true_iff in Hr as [Hr1 Hr2].
    split; [|apply IH; auto; try lia; cbn [width_of]; replace (q + 2 - (p + outside v)) with (q - p + 2 - outside v) by lia; exact Hr2].
    unfold slot_fits. rewrite is_ptr_mkptr, pointer_offset_mkptr by lia. cbn [orb]. exact Hr1.
Qed.
(** Enough: everything together takes at most 16384 bytes. *)
Lemma reach_small vs : Forall (fun v => 0 <= outside v) vs -> forall d, d + 2 * lenZ vs <= MAX_NARROW + 2 -> reach d vs = true.
Proof.
  induction 1 as [|v vs Hv _ IH]; intros d Hd; [reflexivity|]. rewrite lenZ_cons in Hd. pose proof (lenZ_nonneg vs). cbn [reach].
  destruct (to_sized_value v); [apply IH; lia|]. rewrite IH by lia. rewrite andb_true_r. lia.
Qed.
Lemma header_size n : 0 <= n -> header n = hdr_size n.
Proof.
  intros Hn. unfold header, hdr_size, hdr_fleece_size, VARINT_COUNT. destruct (2047 <=? n); lia.
Qed.

Lemma flat_fits c vs ts sk D cl :
  Forall2 wrote vs ts -> Forall wf_enc vs -> flat_ok vs -> lenZ D = content vs ->
  top_fits c (mk_enc D sk [CArr (slots_of 0 vs)] cl) = true.
Proof.
  intros Hv Hwf [Hmx Hk] HD. pose proof (lenZ_nonneg vs). unfold top_fits. cbn [en_stack en_out].
  rewrite slots_len, HD. pose proof (content_nonneg vs ts Hv).
  assert (H32 : content vs < two32) by (unfold MAX_WIDE, two32 in *; lia).
  destruct Hk as [Hw|[Hs Hn]].
  - rewrite (slots_wide _ vs ts) by (auto; unfold MAX_NARROW in *; lia). apply arr_fits_wide.
  - pose proof (slots_swf vs ts Hv 0 (content vs) ltac:(lia) eq_refl ltac:(lia) ltac:(lia)) as Hsw.
    destruct (array_wide_total (c_dbg c) (content vs) (slots_of 0 vs) H32 Hsw) as [w ->].
    destruct w; [apply arr_fits_wide|]. apply (reach_fits vs ts Hv Hwf Hs); [lia|lia|].
    rewrite header_size in Hn by lia. rewrite Z.sub_0_r. exact Hn.
Qed.

Lemma enc_run_app2 c : forall ops1 ops2 e e1 r1 e2 r2,
  enc_run c e ops1 = Ret (e1, r1) -> enc_run c e1 ops2 = Ret (e2, r2) ->
  enc_run c e (ops1 ++ ops2) = Ret (e2, r1 ++ r2).
Proof.
  induction ops1 as [|o ops1 IH]; intros ops2 e e1 r1 e2 r2 H1 H2; cbn [enc_run app] in *.
  - apply ret_inj in H1. injection H1 as <- <-. exact H2.
  - destruct (enc_step c e o) as [[e' r']| | |]; try discriminate. cbn [bind fst snd] in *.
    destruct (enc_run c e' ops1) as [[e3 r3]| | |] eqn:E; try discriminate. cbn [bind fst snd] in H1.
    apply ret_inj in H1. injection H1 as <- <-. rewrite (IH _ _ _ _ _ _ E H2). reflexivity.
Qed.

(** Writing any flat array the encoder handles correctly. *)
Lemma flat_doc c vs ts :
  sort_ok (c_sort c) -> Forall wf_enc vs -> flat_ok vs -> Forall2 (fun v t => stored_value v = Some t) vs ts ->
  exists e' bs, enc_run c enc_new (arr_ops vs) = Ret (e', repeat (Ok tt) (S (S (length vs)))) /\
    finish c e' = Ret bs /\
    forall dbg base, addressable base bs ->
    let m := mk_env dbg base bs None in env_ok m /\
    exists r, from_bytes m = Ret (Ok r) /\ from_bytes_unchecked m = Ret r /\ vstored m None (TArr ts) r.
Proof.
  intros Hs Hw Hfl Hts. pose proof Hfl as [Hmx _].
  assert (Hv : Forall2 wrote vs ts).
  { clear -Hts Hw. induction Hts as [|w x vs ts H _ IH]; [constructor|]. inversion Hw; subst. constructor; [apply wrote_stored; assumption|auto]. }
  pose proof (content_nonneg vs ts Hv). pose proof (lenZ_nonneg vs).
  destruct (values_run c None vs ts Hv [] [] [] eq_refl ltac:(change (lenZ (@nil Z)) with 0; lia) ltac:(constructor)) as (D & Er & HD & Hrep).
  change (lenZ (@nil Z)) with 0 in *. cbn [app] in *.
  set (e1 := mk_enc D None [CArr (slots_of 0 vs)] false) in *.
  pose proof (content_even vs) as Hce.
  assert (Hinv : inv e1 (mk_b [FArr ts] None)).
  { constructor; cbn [e1 en_out en_sk en_stack tl b_stack b_root en_closed]; auto; [lia|].
    constructor; [|constructor]. constructor. exact Hrep. }
  assert (Hpot : pot e1 <= MAX_WIDE).
  { unfold pot. cbn [e1 en_out en_stack stack_pot coll_slots]. rewrite slots_len. lia. }
  destruct (close_array c e1 _ ts [] Hinv eq_refl (flat_fits c vs ts None D false Hv Hw Hfl ltac:(lia)) Hpot)
    as (e2 & Eend & Hinv2 & Hpot2 & Hlen2).
  assert (Est : en_stack e2 = []) by (cbn [e1 en_stack length] in Hlen2; destruct (en_stack e2); [reflexivity|cbn [length] in Hlen2; lia]).
  assert (Erun : enc_run c enc_new (arr_ops vs) = Ret (e2, repeat (Ok tt) (S (S (length vs))))).
  { unfold arr_ops. cbn [enc_run enc_step]. unfold begin_array, enc_new, enc_new_to_vec. cbn [en_closed en_stack top_waits_for_key].
    change (two63 <=? 0 * 4) with false. cbv iota. cbn [bind fst snd]. unfold set_stack; cbn [en_out en_sk en_closed].
    rewrite (enc_run_app2 c (map OpValue vs) [OpEndArray] _ e1 _ e2 [Ok tt] Er).
    - cbn [bind fst snd]. f_equal. f_equal. cbn [repeat]. f_equal. clear. induction vs as [|v vs IH]; [reflexivity|]. cbn [map app length repeat] in *. rewrite IH. reflexivity.
    - cbn [enc_run enc_step]. rewrite Eend. reflexivity. }
  exists e2, (en_out e2). split; [exact Erun|]. split.
  { unfold finish. rewrite Est. cbn [length enc_end]. rewrite Est. reflexivity. }
  intros dbg base [Hb1 Hb2].
  assert (Esk : en_sk e2 = None).
  { eapply sk_none_run; [exact Erun|reflexivity|]. intros tb Hin. unfold arr_ops in Hin. destruct Hin as [|Hin]; [discriminate|].
    apply in_app_or in Hin as [Hin|[|[]]]; [|discriminate]. apply in_map_iff in Hin as (w & ? & _). discriminate. }
  destruct Hinv2 as [_ _ _ Hrt]. cbn [b_pop b_stack b_root close_frame] in Hrt. destruct Hrt as (_ & _ & Hroot).
  rewrite Esk in Hroot. destruct (rooted_read _ _ _ Hroot) as (r & t' & Hsim & Hall).
  assert (Hok : env_ok (mk_env dbg base (en_out e2) None)).
  { unfold env_ok; cbn [e_base e_data]. unfold pot in Hpot2, Hpot. rewrite Est in Hpot2. cbn [stack_pot] in Hpot2.
    unfold MAX_WIDE, two63 in *. lia. }
  destruct (Hall (mk_env dbg base (en_out e2) None) eq_refl Hok) as (Hf & Hfu & Hvs).
  apply tsim_arr in Hsim as (ms & -> & HF).
  assert (ms = ts) as ->.
  { clear -HF Hts. revert vs Hts. induction HF as [|a b l1 l2 Hab _ IH]; intros vs Hts; inversion Hts; subst; [reflexivity|].
    f_equal; [|eapply IH; eassumption]. eapply tsim_scalar; [eapply stored_scalar; eassumption|exact Hab]. }
  split; [exact Hok|]. exists r. auto.
Qed.

(** The element at [i] of any flat array the encoder writes correctly. *)
Lemma flat_read c vs i v t :
  sort_ok (c_sort c) -> Forall wf_enc vs -> Forall (fun v => stored_value v <> None) vs -> flat_ok vs ->
  nthZ vs i = Some v -> stored_value v = Some t ->
  reads_element c vs i (fun m x => forall f, read_tree (S f) m x = Ret t).
Proof.
  intros Hs Hw Hst Hfl Hi Ht.
  assert (Hts : exists ts, Forall2 (fun v t => stored_value v = Some t) vs ts).
  { clear -Hst. induction Hst as [|w vs Hv _ [ts IH]]; [exists []; constructor|].
    destruct (stored_value w) as [x|] eqn:E; [|congruence]. exists (x :: ts). constructor; auto. }
  destruct Hts as [ts Hts].
  destruct (flat_doc c vs ts Hs Hw Hfl Hts) as (e2 & bs & Er & Hf & H). exists e2, bs. split; [exact Er|]. split; [exact Hf|].
  intros dbg base Ha. destruct (H dbg base Ha) as (Hok & r & H1 & H2 & Hvs). cbv zeta in *.
  assert (Hi' : nthZ ts i = Some t).
  { destruct (Forall2_nthZ _ _ _ Hts i _ Hi) as (x & Hx & E). congruence. }
  destruct (arr_get_stored _ None Hok ts r i t Hvs Hi') as (x & Ha' & Hx & Hvx).
  exists r, x. split; [exact H1|]. split; [exact H2|]. split; [exact Ha'|]. split.
  { rewrite (arr_len_stored _ None Hok ts r Hvs). f_equal. symmetry. eapply Forall2_lenZ. exact Hts. }
  split; [exact Hx|]. intros f. pose proof (stored_scalar v t Ht) as Hc.
  destruct (vstored_scalar _ None _ x Hc Hvx) as (ty & _ & _ & Hr). apply Hr.
Qed.

(** The whole array reads back. *)
Lemma flat_tree c vs ts : sort_ok (c_sort c) -> writable vs -> Forall2 (fun v t => stored_value v = Some t) vs ts ->
  exists e' bs, enc_run c enc_new (arr_ops vs) = Ret (e', repeat (Ok tt) (S (S (length vs)))) /\ finish c e' = Ret bs /\
    forall dbg base, addressable base bs ->
    exists r, from_bytes (mk_env dbg base bs None) = Ret (Ok r) /\ read_doc (mk_env dbg base bs None) r = Ret (TArr ts).
Proof.
  intros Hs (Hw & _ & Hfl) Hts. destruct (flat_doc c vs ts Hs Hw Hfl Hts) as (e' & bs & H1 & H2 & H).
  exists e', bs. split; [exact H1|]. split; [exact H2|]. intros dbg base Ha. destruct (H dbg base Ha) as (Hok & r & H3 & _ & H4).
  exists r. split; [exact H3|]. apply read_vstored; assumption.
Qed.

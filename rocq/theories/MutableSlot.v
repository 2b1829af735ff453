(** Slots: a value stored in a mutable collection reads back as [slot_stores] says. *)
From Verif Require Import Prelude Lib Varint VarintProofs Utf8 Float SharedKeys
  Decode Read Encodable Encoder BuilderSpec Holds Repr EncodableProofs ValueSpec Access Flat Mutable MutableSpec.
From Coq Require Import ZifyBool ZifyNat ZifyN.
Ltac Zify.zify_post_hook ::= Z.div_mod_to_equations.

(* ---------- write_fleece_to with room to spare ---------- *)

Ltac room H := match type of H with context [if ?a <? ?b then _ else _] =>
    destruct (a <? b) eqn:?; try discriminate H end.

Lemma write_sized_mono s n n' w bs : write_sized s n w = Ret (Some bs) -> n <= n' -> write_sized s n' w = Ret (Some bs).
Proof.
  unfold write_sized. intros H Hn. destruct (sized_type s).
  all: repeat match goal with |- context [if ?b then _ else _] => destruct b eqn:?; try lia; try discriminate end.
  all: repeat match type of H with context [if ?b then _ else _] => destruct b eqn:?; try lia; try discriminate end.
  all: try exact H; lia.
Qed.
Lemma write_const_mono c n n' w bs : write_constant c n w = Ret (Some bs) -> n <= n' -> write_constant c n' w = Ret (Some bs).
Proof.
  unfold write_constant. intros H Hn. destruct w.
  all: repeat match type of H with context [if ?b then _ else _] => destruct b eqn:?; try discriminate end.
  all: repeat match goal with |- context [if ?b then _ else _] => destruct b eqn:?; try lia end; exact H.
Qed.
Lemma write_u64_big_mono dbg z n n' bs : write_u64_big dbg z n = Ret (Some bs) -> n <= n' -> write_u64_big dbg z n' = Ret (Some bs).
Proof.
  unfold write_u64_big. intros H Hn. destruct (n <? u64_fleece_size z) eqn:E; [discriminate|].
  destruct (n' <? u64_fleece_size z) eqn:E'; [lia|exact H].
Qed.
Lemma write_i64_mono : forall f z n n' w bs, write_i64 f z n w = Ret (Some bs) -> n <= n' -> write_i64 f z n' w = Ret (Some bs).
Proof.
  induction f as [|f IH]; intros z n n' w bs H Hn; cbn [write_i64] in *; [discriminate|].
  rewrite i64_is_short_true in *. destruct (_ || _); [eapply IH; eauto|].
  destruct (i16_to_sized (wrap_i16 z)); [|discriminate]. eapply write_sized_mono; eauto.
Qed.
Lemma write_mono dbg v : forall n n' bs, write_to dbg v n false = Ret (Some bs) -> n <= n' -> write_to dbg v n' false = Ret (Some bs).
Proof.
  induction v as [t z|b|b|b| | |s|s| |w IH|s|d k]; intros n n' bs H Hn; cbn [write_to] in *;
    try (eapply write_const_mono; eauto; fail); try (eapply write_sized_mono; eauto; fail); try (eapply IH; eauto; fail).
  - assert (H16 : forall z n n' bs, write_u16 dbg z n false = Ret (Some bs) -> n <= n' -> write_u16 dbg z n' false = Ret (Some bs)).
    { clear. intros z n n' bs H Hn. unfold write_u16 in *. destruct (2047 <? z); [eapply write_u64_big_mono; eauto|].
      destruct (u16_to_sized z); [eapply write_sized_mono; eauto|discriminate]. }
    assert (H64 : write_u64 dbg z n false = Ret (Some bs) -> write_u64 dbg z n' false = Ret (Some bs)).
    { clear H. intros H. unfold write_u64 in *. destruct (z <=? 2047); [eapply H16; eauto|eapply write_u64_big_mono; eauto]. }
    assert (Hs : write_i16 INT_FUEL z n false = Ret (Some bs) -> write_i16 INT_FUEL z n' false = Ret (Some bs)).
    { clear H. intros H. unfold write_i16 in *. destruct (_ || _); [eapply write_i64_mono; eauto|].
      destruct (i16_to_sized z); [eapply write_sized_mono; eauto|discriminate]. }
    destruct t; auto; try (eapply write_i64_mono; eauto); eapply H16; eauto.
  - destruct (n <? 6) eqn:E; [discriminate|]. destruct (n' <? 6) eqn:E'; [lia|exact H].
  - destruct (n <? 10) eqn:E; [discriminate|]. destruct (n' <? 10) eqn:E'; [lia|exact H].
  - unfold write_string in *. cbv zeta in *. repeat room H.
    repeat match goal with |- context [if ?a <? ?b then _ else _] => destruct (a <? b) eqn:?; try lia end. exact H.
  - unfold write_string in *. cbv zeta in *. repeat room H.
    repeat match goal with |- context [if ?a <? ?b then _ else _] => destruct (a <? b) eqn:?; try lia end. exact H.
  - unfold write_hdr in *. cbv zeta in *. repeat room H.
    repeat match goal with |- context [if ?a <? ?b then _ else _] => destruct (a <? b) eqn:?; try lia end. exact H.
Qed.

(* ---------- values that fit in a slot of two bytes ---------- *)

Lemma short_write z b0 b1 n : -2048 <= z <= 2047 -> [b0; b1] = short_bytes z -> 2 <= n ->
  write_sized [b0; b1; 0; 0] n false = Ret (Some [b0; b1]).
Proof.
  intros Hz Hb Hn. unfold short_bytes in Hb. injection Hb as -> ->. unfold write_sized, sized_type. cbn [nth].
  assert (Hr : 0 <= (wrap_u16 z / 256) mod 16 < 16) by (apply Z.mod_pos_bound; lia).
  rewrite type_short by exact Hr. destruct (n <? 2) eqn:E; [lia|]. cbn [nth]. set (b := (wrap_u16 z / 256) mod 16) in *.
  assert (Hs : forall j, 0 <= j < 16 -> (Z.land j 191 =? j) = true) by (apply (range_sweep (fun j => Z.land j 191 =? j) 16); reflexivity).
  specialize (Hs b Hr). apply Z.eqb_eq in Hs. rewrite Hs. reflexivity.
Qed.

Lemma sized_written dbg v b0 b1 n t : wf_enc v -> to_sized_value v = Some [b0; b1; 0; 0] -> repr t [b0; b1] -> 2 <= n ->
  write_to dbg v n false = Ret (Some [b0; b1]) /\ fleece_size v = 2.
Proof.
  intros Hw Hv Hr Hn. revert Hw Hv.
  induction v as [ty z|b|b|b| | |s|s| |w IH|s|d k]; intros Hw Hv; cbn [to_sized_value wf_enc write_to fleece_size] in *; try discriminate; try contradiction.
  - assert (Hi : forall z, i16_to_sized z = Some [b0; b1; 0; 0] ->
      -2048 <= z <= 2047 /\ write_sized [b0; b1; 0; 0] n false = Ret (Some [b0; b1])).
    { clear - Hn. intros z H. assert (Hz : -2048 <= z <= 2047) by (unfold i16_to_sized in H; destruct (_ || _) eqn:E; [discriminate|lia]).
      split; [exact Hz|]. destruct (i16_sized z Hz) as (c0 & c1 & E & E2). rewrite H in E. injection E as <- <-. eapply short_write; eauto. }
    assert (Hu : forall z, 0 <= z -> u16_to_sized z = Some [b0; b1; 0; 0] ->
      z <= 2047 /\ write_sized [b0; b1; 0; 0] n false = Ret (Some [b0; b1])).
    { clear - Hn. intros z H0 H. assert (Hz : 0 <= z <= 2047) by (unfold u16_to_sized in H; destruct (_ <? _) eqn:E; [discriminate|lia]).
      split; [lia|]. destruct (u16_sized z Hz) as (c0 & c1 & E & E2). rewrite H in E. injection E as <- <-. eapply short_write with (z := z); eauto; lia. }
    assert (H64 : (if i64_is_short z then i16_to_sized (wrap_i16 z) else None) = Some [b0; b1; 0; 0] ->
      write_i64 INT_FUEL z n false = Ret (Some [b0; b1]) /\ i64_fleece_size z = 2).
    { clear Hv. unfold INT_FUEL, i64_fleece_size. cbn [write_i64]. rewrite i64_is_short_true. intros Hv. destruct (Hi _ Hv) as [Hz Hwr].
      destruct (_ || _) eqn:E; [lia|]. rewrite Hv. auto. }
    assert (H16 : i16_to_sized z = Some [b0; b1; 0; 0] -> write_i16 INT_FUEL z n false = Ret (Some [b0; b1]) /\ 2 = 2).
    { clear Hv. intros Hv. destruct (Hi _ Hv) as [Hz Hwr]. unfold write_i16. destruct (_ || _) eqn:E; [lia|]. rewrite Hv. auto. }
    assert (Hu16 : forall z, 0 <= z -> u16_to_sized z = Some [b0; b1; 0; 0] -> write_u16 dbg z n false = Ret (Some [b0; b1])).
    { clear - Hu. intros z H0 H. destruct (Hu _ H0 H) as [Hz Hwr]. unfold write_u16. destruct (2047 <? z) eqn:E; [lia|]. rewrite H. exact Hwr. }
    assert (Hu64 : 0 <= z -> (if z <=? 2047 then u16_to_sized (wrap_u16 z) else None) = Some [b0; b1; 0; 0] ->
      write_u64 dbg z n false = Ret (Some [b0; b1]) /\ u64_fleece_size z = 2).
    { clear Hv. unfold write_u64, u64_fleece_size. intros H0 H. destruct (z <=? 2047) eqn:E; [|discriminate].
      rewrite (wrap_u16_id z) in * by lia. auto. }
    destruct ty; cbn [ity_min ity_max] in Hw; auto; try (apply Hu64; [lia|exact Hv]); (split; [apply Hu16; [lia|exact Hv]|reflexivity]).
  - unfold write_constant. injection Hv as <- <-. destruct (n <? 2) eqn:E; [lia|]. split; reflexivity.
  - unfold write_constant. injection Hv as <- <-. destruct (n <? 2) eqn:E; [lia|]. split; reflexivity.
  - unfold write_constant. injection Hv as <- <-. destruct (n <? 2) eqn:E; [lia|]. split; reflexivity.
  - unfold bytes_to_sized in Hv. destruct s as [|c [|? ?]]; try discriminate; injection Hv as <- <-;
      unfold bytes_fleece_size, write_string, lenZ; cbn; destruct (n <? 2) eqn:E; try lia; split; reflexivity.
  - unfold bytes_to_sized in Hv. destruct s as [|c [|? ?]]; try discriminate; injection Hv as <- <-;
      unfold bytes_fleece_size, write_string, lenZ; cbn; destruct (n <? 2) eqn:E; try lia; split; reflexivity.
  - unfold write_constant. injection Hv as <- <-. destruct (n <? 2) eqn:E; [lia|]. split; reflexivity.
  - apply IH; assumption.
Qed.

(** What [ValueSlot::new] writes. *)
Lemma slot_written dbg v t : wf_enc v -> slot_stores v = Some t ->
  let n := if fleece_size v <=? 15 then 15 else fleece_size v in
  exists bs, write_to dbg v n false = Ret (Some bs) /\ lenZ bs <= n /\ repr t bs.
Proof.
  intros Hw Hs. cbv zeta.
  assert (Hwrote : wrote v t -> exists bs, write_to dbg v (if fleece_size v <=? 15 then 15 else fleece_size v) false = Ret (Some bs) /\
     lenZ bs <= (if fleece_size v <=? 15 then 15 else fleece_size v) /\ repr t bs).
  { intros [(b0 & b1 & Hv & Hr)|[Hv Hd]].
    - destruct (fleece_size v <=? 15) eqn:E.
      + exists [b0; b1]. destruct (sized_written dbg v b0 b1 15 t Hw Hv Hr ltac:(lia)) as [H _]. split; [exact H|]. split; [cbn; lia|exact Hr].
      + destruct (sized_written dbg v b0 b1 15 t Hw Hv Hr ltac:(lia)) as [_ H]. lia.
    - destruct (Hd dbg) as (bs & H1 & H2 & H3). exists bs.
      assert (fleece_size v <= if fleece_size v <=? 15 then 15 else fleece_size v) by (destruct (_ <=? _) eqn:?; lia).
      split; [eapply write_mono; eauto|]. split; [lia|exact H3]. }
  revert Hw Hs Hwrote. induction v as [ty z|b|b|b| | |s|s| |w IH|s|d k]; intros Hw Hs Hwrote;
    try (apply Hwrote, wrote_stored; assumption).
  - assert (Hu : ty = U8 \/ ty = U16 -> t = TInt z -> exists bs, write_to dbg (EInt ty z) 15 false = Ret (Some bs) /\ lenZ bs <= 15 /\ repr t bs).
    { intros Ht ->. assert (Hz : 0 <= z <= 65535) by (destruct Ht as [-> | ->]; cbn in Hw; lia).
      destruct (Z_le_gt_dec z 2047) as [Hle|Hgt].
      - assert (wrote (EInt ty z) (TInt z)) as Hwr.
        { apply wrote_stored; [exact Hw|]. destruct Ht as [-> | ->]; cbn [stored_value]; destruct (z <=? 2047) eqn:E; try lia; reflexivity. }
        destruct (Hwrote Hwr) as (bs & H1 & H2 & H3). exists bs.
        assert (fleece_size (EInt ty z) = 2) as Hf by (destruct Ht as [-> | ->]; reflexivity). rewrite Hf in *. cbn in H1, H2. auto.
      - destruct (write_u64_repr dbg z ltac:(unfold two64; lia) (u32_uint_ok z ltac:(unfold two32; lia))) as (bs & H1 & H2 & H3).
        exists bs. split; [|split; [|exact H3]].
        + assert (write_u16 dbg z 15 false = Ret (Some bs)).
          { unfold write_u16. destruct (2047 <? z) eqn:E; [|lia]. eapply write_u64_big_mono; [exact H1|].
            unfold u64_fleece_size. destruct (z <=? 2047); [lia|]. pose proof (ctz64_bound z 64 ltac:(lia) ltac:(lia)). lia. }
          destruct Ht as [-> | ->]; assumption.
        + rewrite H2. unfold u64_fleece_size. destruct (z <=? 2047); [lia|]. pose proof (ctz64_bound z 64 ltac:(lia) ltac:(lia)). lia. }
    destruct ty; try (apply Hwrote, wrote_stored; assumption).
    + injection Hs as <-. apply Hu; auto.
    + injection Hs as <-. apply Hu; auto.
  - cbn [slot_stores wf_enc fleece_size write_to] in *. apply IH; auto.
Qed.

Lemma padded_holds n bs : lenZ bs <= n -> holds (zero_padded n bs) 0 bs.
Proof.
  intros H. unfold zero_padded. exists [], (firstn (Z.to_nat n - length bs) (repeat 0 (Z.to_nat n))).
  split; [|reflexivity]. cbn [app]. rewrite firstn_app. f_equal. apply firstn_all2. unfold lenZ in H. lia.
Qed.
Lemma padded_len n bs : 0 <= n -> lenZ (zero_padded n bs) = n.
Proof. intros H. unfold zero_padded, lenZ. rewrite firstn_length, app_length, repeat_length. lia. Qed.

Lemma repr_reads t bs n : repr t bs -> lenZ bs <= n -> reads_as (zero_padded n bs) t.
Proof.
  intros (H2 & Hb & Hr) Hn dbg base. unfold read_doc, fuel_of. cbn [e_data].
  apply Hr; cbn [e_data]; [apply padded_holds; exact Hn|]. rewrite padded_len; lia.
Qed.

Lemma slot_stores_scalar v t : slot_stores v = Some t -> is_scalar t = true.
Proof.
  induction v as [ty z|b|b|b| | |s|s| |w IH|s|d k]; cbn [slot_stores stored_value tree_of]; intros H; try (injection H as <-; reflexivity).
  - destruct ty; try (injection H as <-; reflexivity); cbv zeta in H;
      repeat (match type of H with context [if ?b then _ else _] => destruct b end; try discriminate); injection H as <-; reflexivity.
  - auto.
Qed.

(** C37: the slot made for a value holds what [slot_stores] says. *)
Lemma slot_new_shows T dbg v t : wf_enc v -> slot_stores v = Some t ->
  exists s, slot_new dbg v = Ret s /\ shows T s t /\ slot_array s = None /\ slot_dict s = None.
Proof.
  intros Hw Hs. pose proof (slot_stores_scalar v t Hs) as Hsc. destruct (slot_written dbg v t Hw Hs) as (bs & H1 & H2 & H3).
  unfold slot_new, INLINE_CAPACITY. destruct (fleece_size v <=? 15) eqn:E; rewrite H1; cbn [bind];
    eexists; (split; [reflexivity|]); (split; [constructor; [exact Hsc|apply repr_reads; assumption]|split; reflexivity]).
Qed.

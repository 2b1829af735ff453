(** UTF-8 validation and decoding agree with the encoding of text. *)
From Verif Require Import Prelude Utf8 TextSpec.
From Coq Require Import ZifyBool ZifyNat ZifyN Lia.
Ltac Zify.zify_post_hook ::= Z.div_mod_to_equations.

Ltac dec1 := match goal with |- context [if ?b then _ else _] => destruct b eqn:? end.
Ltac rng := unfold second3, second4, is_cont, in_rng in *.

Lemma valid_char c r : scalar c -> utf8_valid (encode_char c ++ r) = utf8_valid r.
Proof.
  unfold scalar, encode_char. intros H.
  destruct (c <? 0x80) eqn:E1; [|destruct (c <? 0x800) eqn:E2; [|destruct (c <? 0x10000) eqn:E3]]; cbn [app utf8_valid].
  - rng. assert ((0 <=? c) && (c <=? 127) = true) as -> by lia. reflexivity.
  - assert (in_rng 0 127 (0xC0 + c / 64) = false) as -> by (rng; lia).
    assert (in_rng 194 223 (0xC0 + c / 64) = true) as -> by (rng; lia).
    assert (is_cont (0x80 + c mod 64) = true) as -> by (rng; lia). reflexivity.
  - assert (in_rng 0 127 (0xE0 + c / 4096) = false) as -> by (rng; lia).
    assert (in_rng 194 223 (0xE0 + c / 4096) = false) as -> by (rng; lia).
    assert (in_rng 224 239 (0xE0 + c / 4096) = true) as -> by (rng; lia).
    assert (is_cont (0x80 + c mod 64) = true) as -> by (rng; lia).
    assert (second3 (0xE0 + c / 4096) (0x80 + c / 64 mod 64) = true) as ->.
    { unfold second3. destruct (_ =? 224) eqn:?; [rng; lia|]. destruct (_ =? 237) eqn:?; rng; lia. }
    reflexivity.
  - assert (in_rng 0 127 (0xF0 + c / 262144) = false) as -> by (rng; lia).
    assert (in_rng 194 223 (0xF0 + c / 262144) = false) as -> by (rng; lia).
    assert (in_rng 224 239 (0xF0 + c / 262144) = false) as -> by (rng; lia).
    assert (in_rng 240 244 (0xF0 + c / 262144) = true) as -> by (rng; lia).
    assert (is_cont (0x80 + c mod 64) = true) as -> by (rng; lia).
    assert (is_cont (0x80 + c / 64 mod 64) = true) as -> by (rng; lia).
    assert (second4 (0xF0 + c / 262144) (0x80 + c / 4096 mod 64) = true) as ->.
    { unfold second4. destruct (_ =? 240) eqn:?; [rng; lia|]. destruct (_ =? 244) eqn:?; rng; lia. }
    reflexivity.
Qed.
Lemma chars_char c r : scalar c -> utf8_chars (encode_char c ++ r) = c :: utf8_chars r.
Proof.
  unfold scalar, encode_char. intros H.
  destruct (c <? 0x80) eqn:E1; [|destruct (c <? 0x800) eqn:E2; [|destruct (c <? 0x10000) eqn:E3]]; cbn [app utf8_chars].
  - rng. assert ((0 <=? c) && (c <=? 127) = true) as -> by lia. reflexivity.
  - assert (in_rng 0 127 (0xC0 + c / 64) = false) as -> by (rng; lia).
    assert (in_rng 194 223 (0xC0 + c / 64) = true) as -> by (rng; lia). f_equal. lia.
  - assert (in_rng 0 127 (0xE0 + c / 4096) = false) as -> by (rng; lia).
    assert (in_rng 194 223 (0xE0 + c / 4096) = false) as -> by (rng; lia).
    assert (in_rng 224 239 (0xE0 + c / 4096) = true) as -> by (rng; lia). f_equal. lia.
  - assert (in_rng 0 127 (0xF0 + c / 262144) = false) as -> by (rng; lia).
    assert (in_rng 194 223 (0xF0 + c / 262144) = false) as -> by (rng; lia).
    assert (in_rng 224 239 (0xF0 + c / 262144) = false) as -> by (rng; lia). f_equal. lia.
Qed.
Lemma chars_text cs : Forall scalar cs -> utf8_chars (encode_text cs) = cs.
Proof.
  induction 1 as [|c cs Hc _ IH]; [reflexivity|]. unfold encode_text in *. cbn [flat_map].
  rewrite chars_char by exact Hc. rewrite IH. reflexivity.
Qed.
Lemma text_valid bs : is_text bs -> utf8_valid bs = true.
Proof.
  intros (cs & Hc & ->). induction Hc as [|c cs Hc _ IH]; [reflexivity|]. unfold encode_text in *. cbn [flat_map].
  rewrite valid_char by exact Hc. exact IH.
Qed.

Lemma text_cons c r : scalar c -> is_text r -> is_text (encode_char c ++ r).
Proof. intros Hc (cs & Hcs & ->). exists (c :: cs). split; [constructor; assumption|reflexivity]. Qed.
Lemma char1 b0 : in_rng 0 127 b0 = true -> scalar b0 /\ encode_char b0 = [b0].
Proof. rng. intros H. unfold scalar, encode_char. split; [lia|]. dec1; [reflexivity|lia]. Qed.
Lemma char2 b0 b1 : in_rng 194 223 b0 = true -> is_cont b1 = true ->
  exists c, scalar c /\ encode_char c = [b0; b1].
Proof.
  rng. intros H1 H2. exists ((b0 - 192) * 64 + (b1 - 128)). unfold scalar, encode_char. split; [lia|].
  dec1; [lia|]. dec1; [|lia]. f_equal; [lia|f_equal; lia].
Qed.
Lemma char3 b0 b1 b2 : in_rng 224 239 b0 = true -> second3 b0 b1 = true -> is_cont b2 = true ->
  exists c, scalar c /\ encode_char c = [b0; b1; b2].
Proof.
  unfold second3. intros H1 H2 H3.
  assert (Hb : 128 <= b1 <= 191 /\ (b0 = 224 -> 160 <= b1) /\ (b0 = 237 -> b1 <= 159)).
  { destruct (b0 =? 224) eqn:?; [|destruct (b0 =? 237) eqn:?]; rng; lia. }
  clear H2. rng. exists ((b0 - 224) * 4096 + (b1 - 128) * 64 + (b2 - 128)). unfold scalar, encode_char. split; [lia|].
  dec1; [lia|]. dec1; [lia|]. dec1; [|lia]. f_equal; [lia|f_equal; [lia|f_equal; lia]].
Qed.
Lemma char4 b0 b1 b2 b3 : in_rng 240 244 b0 = true -> second4 b0 b1 = true -> is_cont b2 = true -> is_cont b3 = true ->
  exists c, scalar c /\ encode_char c = [b0; b1; b2; b3].
Proof.
  unfold second4. intros H1 H2 H3 H4.
  assert (Hb : 128 <= b1 <= 191 /\ (b0 = 240 -> 144 <= b1) /\ (b0 = 244 -> b1 <= 143)).
  { destruct (b0 =? 240) eqn:?; [|destruct (b0 =? 244) eqn:?]; rng; lia. }
  clear H2. rng. exists ((b0 - 240) * 262144 + (b1 - 128) * 4096 + (b2 - 128) * 64 + (b3 - 128)). unfold scalar, encode_char. split; [lia|].
  dec1; [lia|]. dec1; [lia|]. dec1; [lia|]. f_equal; [lia|f_equal; [lia|f_equal; [lia|f_equal; lia]]].
Qed.
Lemma valid_text_n : forall n bs, (length bs <= n)%nat -> utf8_valid bs = true -> is_text bs.
Proof.
  induction n as [|n IH]; intros bs Hl H.
  { destruct bs; [|cbn [length] in Hl; lia]. exists []. split; [constructor|reflexivity]. }
  destruct bs as [|b0 r0]; [exists []; split; [constructor|reflexivity]|]. cbn [length] in Hl. cbn [utf8_valid] in H.
  destruct (in_rng 0 127 b0) eqn:E0.
  { destruct (char1 _ E0) as [Hc Ee]. change (b0 :: r0) with ([b0] ++ r0). rewrite <- Ee. apply text_cons; [exact Hc|apply IH; [lia|exact H]]. }
  destruct r0 as [|b1 r1]; [discriminate|]. cbn [length] in Hl.
  destruct (in_rng 194 223 b0) eqn:E1.
  { apply andb_true_iff in H as [H1 H2]. destruct (char2 _ _ E1 H1) as (c & Hc & Ee).
    change (b0 :: b1 :: r1) with ([b0; b1] ++ r1). rewrite <- Ee. apply text_cons; [exact Hc|apply IH; [lia|exact H2]]. }
  destruct r1 as [|b2 r2]; [discriminate|]. cbn [length] in Hl.
  destruct (in_rng 224 239 b0) eqn:E2.
  { apply andb_true_iff in H as [H H2]. apply andb_true_iff in H as [H0 H1]. destruct (char3 _ _ _ E2 H0 H1) as (c & Hc & Ee).
    change (b0 :: b1 :: b2 :: r2) with ([b0; b1; b2] ++ r2). rewrite <- Ee. apply text_cons; [exact Hc|apply IH; [lia|exact H2]]. }
  destruct r2 as [|b3 r3]; [discriminate|]. cbn [length] in Hl.
  destruct (in_rng 240 244 b0) eqn:E3; [|discriminate].
  apply andb_true_iff in H as [H H2]. apply andb_true_iff in H as [H H3]. apply andb_true_iff in H as [H0 H1].
  destruct (char4 _ _ _ _ E3 H0 H1 H3) as (c & Hc & Ee).
  change (b0 :: b1 :: b2 :: b3 :: r3) with ([b0; b1; b2; b3] ++ r3). rewrite <- Ee. apply text_cons; [exact Hc|apply IH; [lia|exact H2]].
Qed.
Lemma valid_iff bs : utf8_valid bs = true <-> is_text bs.
Proof. split; [apply (valid_text_n (length bs)); lia|apply text_valid]. Qed.

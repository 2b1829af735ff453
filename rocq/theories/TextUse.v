(** The texts the API hands out, and the keys it puts into a table. *)
From Verif Require Import Prelude Lib Utf8 SharedKeys Decode Read Encodable Encoder EncoderClean SharedKeysSpec SharedKeysProofs TextSpec TextProofs.
From Coq Require Import ZifyBool ZifyNat ZifyN Lia.

Lemma nil_text : is_text [].
Proof. exists []. split; [constructor|reflexivity]. Qed.
Lemma to_str_text e v s : to_str e v = Ret s -> is_text s.
Proof.
  intros H. unfold to_str in H. destruct (value_type e v) as [t| | |]; try discriminate. cbn [bind] in H.
  destruct t; try (apply Ret_inj in H; subst s; exact nil_text).
  destruct (get_data e v) as [d| | |]; try discriminate. cbn [bind] in H.
  destruct (slice_content e d) as [bs| | |] eqn:Es; try discriminate. cbn [bind] in H. apply Ret_inj in H. subst s.
  destruct (utf8_valid bs) eqn:Eu; [apply valid_iff; exact Eu|exact nil_text].
Qed.
Lemma to_str_exact e v bs : value_type e v = Ret TyString -> to_data e v = Ret bs ->
  (is_text bs -> to_str e v = Ret bs) /\ (~ is_text bs -> to_str e v = Ret []).
Proof.
  intros Ht H. unfold to_data, to_str in *. rewrite Ht in *. cbn [bind] in *.
  destruct (get_data e v) as [d| | |]; try discriminate. cbn [bind] in *. rewrite H. cbn [bind].
  rewrite <- valid_iff. destruct (utf8_valid bs); split; congruence.
Qed.
Lemma dict_keys_text e : (forall t, e_sk e = Some t -> Forall is_text t) ->
  forall f it kvs, dict_collect f e it = Ret kvs -> Forall is_text (map fst kvs).
Proof.
  intros Hs. induction f as [|f IH]; intros it kvs H; cbn [dict_collect] in H; [discriminate|].
  destruct (dict_iter_next e it) as [[[[k x]|] it']| | |] eqn:E; try discriminate; cbn [bind] in H.
  - destruct (dict_collect f e it') as [l| | |] eqn:El; try discriminate. cbn [bind] in H. apply Ret_inj in H. subst kvs.
    cbn [map fst]. constructor; [|apply (IH _ _ El)]. unfold dict_iter_next in E.
    destruct (iter_next e it) as [[[kv|] it1]| | |]; try discriminate; cbn [bind] in E.
    destruct (value_type e kv) as [t| | |]; try discriminate. cbn [bind] in E.
    destruct (vtype_eqb t TyShort).
    + destruct (e_sk e) as [tb|]; cbn [bind] in E; [|discriminate]. specialize (Hs tb eq_refl).
      destruct (to_unsigned_short e kv) as [i| | |]; try discriminate. cbn [bind] in E. unfold sk_decode in E.
      destruct (nthZ tb i) as [s|] eqn:En; [|discriminate]. destruct (iter_next e it1) as [[[xv|] it2]| | |]; try discriminate; cbn [bind] in E.
      apply Ret_inj in E. injection E as <- _ _. apply nthZ_In in En. exact (proj1 (Forall_forall _ _) Hs _ En).
    + destruct (to_str e kv) as [s| | |] eqn:Et; try discriminate. cbn [bind] in E.
      destruct (iter_next e it1) as [[[xv|] it2]| | |]; try discriminate; cbn [bind] in E. apply Ret_inj in E. injection E as <- _ _.
      apply (to_str_text e kv s Et).
  - apply Ret_inj in H. subst. constructor.
Qed.
Lemma dict_elems_text e d kvs : (forall t, e_sk e = Some t -> Forall is_text t) ->
  dict_elems e d = Ret kvs -> Forall is_text (map fst kvs).
Proof.
  intros Hs H. unfold dict_elems in H. destruct (arr_iter e d); try discriminate. cbn [bind] in H. eapply dict_keys_text; eauto.
Qed.

Lemma insert_all_text ua : forall ks t, Forall is_text t -> Forall is_text ks -> (forall k, In k ks -> lenZ k <> 16) ->
  Forall is_text (fst (insert_all ua t ks)).
Proof.
  induction ks as [|k ks IH]; intros t Ht Hk H16; cbn [insert_all fst]; [exact Ht|].
  inversion Hk as [|? ? Hk1 Hk2]; subst. destruct (encode_and_insert ua t k) as [t1 a] eqn:E.
  assert (Ht1 : Forall is_text t1).
  { destruct a as [i|].
    - apply insert_step in E as (_ & Hl & _ & _ & [[-> _]|[-> _]]); [exact Ht|].
      apply Forall_app. split; [exact Ht|]. constructor; [|constructor].
      assert (lenZ k <> 16) by (apply H16; left; reflexivity). unfold zstr_make. rewrite firstn_all2; [exact Hk1|unfold lenZ in *; lia].
    - apply insert_none in E as [-> _]. exact Ht. }
  specialize (IH t1 Ht1 Hk2 (fun k' Hin => H16 k' (or_intror Hin))). destruct (insert_all ua t1 ks). exact IH.
Qed.
Lemma table_text ua ks : Forall is_text ks -> (forall k, In k ks -> lenZ k <> 16) -> Forall is_text (after ua ks).
Proof. intros H1 H2. apply insert_all_text; auto. Qed.

Lemma char_ok ua c : 0 <= c -> (char_alnum ua c || (c =? 95) || (c =? 45) = true <-> key_char ua c).
Proof.
  intros Hc. unfold char_alnum, ascii_alnum, in_rng, key_char. destruct (c <? 128) eqn:E.
  - split; [intros H; lia|intros [H|[H|[H|[H|[H|[H _]]]]]]; lia].
  - split; [intros H; destruct (ua c) eqn:Eu; [right; right; right; right; right; split; [lia|reflexivity]|lia]|].
    intros [H|[H|[H|[H|[H|[H Hu]]]]]]; try lia; rewrite ?Hu; lia.
Qed.
Lemma can_encode_text ua cs : Forall scalar cs -> (can_encode ua (encode_text cs) = true <-> Forall (key_char ua) cs).
Proof.
  intros Hc. unfold can_encode. rewrite chars_text by exact Hc. rewrite forallb_forall, Forall_forall.
  assert (Hp : forall c, In c cs -> 0 <= c). { intros c Hin. rewrite Forall_forall in Hc. apply Hc in Hin. unfold scalar in Hin. lia. }
  split; intros H c Hin; apply (char_ok ua c (Hp c Hin)); apply H; exact Hin.
Qed.
Lemma accepted_keys ua t cs : Forall scalar cs -> lenZ t < 2048 ->
  (snd (encode_and_insert ua t (encode_text cs)) <> None <-> lenZ (encode_text cs) <= 16 /\ Forall (key_char ua) cs).
Proof.
  intros Hc Hl. rewrite <- can_encode_text by exact Hc. set (k := encode_text cs). unfold encode_and_insert, can_add, sk_len, MAX_KEYS, MAX_KEY_LEN.
  replace (lenZ t <? 2048) with true by lia. cbn [andb]. destruct (can_encode ua k), (lenZ k <=? 16) eqn:E; cbn [andb negb].
  - destruct (sk_find _ 0 t); cbn [snd]; (split; [intros _; split; [lia|reflexivity]|discriminate]).
  - cbn [snd]. split; [congruence|intros [H _]; lia].
  - cbn [snd]. split; [congruence|intros [_ H]; discriminate].
  - cbn [snd]. split; [congruence|intros [_ H]; discriminate].
Qed.
(** In an encoder with a table, such a key of two or more bytes is not written to the output. *)
Lemma key_shared c e t cs vs st : Forall scalar cs -> 2 <= lenZ (encode_text cs) <= 16 -> Forall (key_char (c_ua c)) cs ->
  en_sk e = Some t -> lenZ t < 2048 -> en_stack e = CDict vs None :: st ->
  exists e' t' i, enc_step c e (OpKey (encode_text cs)) = Ret (e', Ok tt) /\ en_out e' = en_out e /\
    encode_and_insert (c_ua c) t (encode_text cs) = (t', Some i) /\ en_sk e' = Some t'.
Proof.
  intros Hc Hl Hk Esk Ht Est. destruct (accepted_keys (c_ua c) t cs Hc Ht) as [_ Ha].
  specialize (Ha (conj (proj2 Hl) Hk)). destruct (encode_and_insert (c_ua c) t (encode_text cs)) as [t' [i|]] eqn:E; [|cbn [snd] in Ha; congruence].
  cbn [enc_step]. unfold write_key. set (k := encode_text cs) in *.
  assert (to_sized_value (EStr k) = None) as ->.
  { destruct k as [|k0 [|k1 k]]; [unfold lenZ in Hl; cbn in Hl; lia|unfold lenZ in Hl; cbn in Hl; lia|reflexivity]. }
  unfold write_key_long. rewrite Esk, Est, E. unfold push_key. cbn [set_sk en_stack en_out en_sk]. rewrite Est.
  eexists _, t', i. split; [reflexivity|]. cbn. auto.
Qed.
(** A key with a character that may not be shared is written out. *)
Lemma key_written_out c e t cs vs st e' r : Forall scalar cs -> 2 <= lenZ (encode_text cs) -> ~ Forall (key_char (c_ua c)) cs ->
  en_sk e = Some t -> lenZ t < 2048 -> en_stack e = CDict vs None :: st ->
  enc_step c e (OpKey (encode_text cs)) = Ret (e', r) -> en_sk e' = Some t.
Proof.
  intros Hc Hl Hk Esk Ht Est H. destruct (accepted_keys (c_ua c) t cs Hc Ht) as [Ha _].
  destruct (encode_and_insert (c_ua c) t (encode_text cs)) as [t' [i|]] eqn:E.
  { exfalso. apply Hk. apply Ha. discriminate. }
  apply insert_none in E as E'. destruct E' as [-> _].
  cbn [enc_step] in H. unfold write_key in H. set (k := encode_text cs) in *.
  assert (to_sized_value (EStr k) = None) as Ez.
  { destruct k as [|k0 [|k1 k]]; [unfold lenZ in Hl; cbn in Hl; lia|unfold lenZ in Hl; cbn in Hl; lia|reflexivity]. }
  rewrite Ez in H. unfold write_key_long in H. rewrite Esk, Est, E in H. unfold write_key_pointer in H.
  destruct (enc_write c _ _ _ _) as [[e1 o1]| | |] eqn:Ew; try discriminate. cbn [bind] in H.
  apply enc_write_grown in Ew as [G _]. apply grown_ext in G as [_ G]. apply Ret_inj in H.
  replace e' with (fst (push_key e1 (DKPointer k o1))) by (rewrite H; reflexivity).
  destruct (push_key_ext e1 (DKPointer k o1)) as [_ ->]. exact G.
Qed.

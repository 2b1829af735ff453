(** C66, C67: the texts the API hands out are text, and which keys go into a key table. *)
From Verif Require Import Prelude Utf8 SharedKeys Decode Read Encodable Encoder SharedKeysSpec TextSpec TextProofs TextUse.
From Coq Require Import Lia.

(* ---------- C66 ---------- *)

(** Whatever the bytes: a text read from a value is well-formed UTF-8, ... *)
Theorem C66_to_str : forall e v s, to_str e v = Ret s -> is_text s.
Proof. exact to_str_text. Qed.
Print Assumptions C66_to_str.
(** ... namely the bytes of the string if they are, and the empty text if they are not. *)
Theorem C66_to_str_exact : forall e v bs, value_type e v = Ret TyString -> to_data e v = Ret bs ->
  (is_text bs -> to_str e v = Ret bs) /\ (~ is_text bs -> to_str e v = Ret []).
Proof. exact to_str_exact. Qed.
Print Assumptions C66_to_str_exact.
(** The keys a dict iterator yields are text, if those in the key table are, ... *)
Theorem C66_dict_keys : forall e d kvs, (forall t, e_sk e = Some t -> Forall is_text t) ->
  dict_elems e d = Ret kvs -> Forall is_text (map fst kvs).
Proof. exact dict_elems_text. Qed.
Print Assumptions C66_dict_keys.
(** ... and those are, unless a key of 16 bytes was inserted. *)
Theorem C66_table_partial : forall ua ks, Forall is_text ks -> (forall k, In k ks -> lenZ k <> 16) ->
  forall i k, sk_decode (after ua ks) i = Some k -> is_text k.
Proof.
  intros ua ks H1 H2 i k H. assert (Hf := table_text ua ks H1 H2). rewrite Forall_forall in Hf. apply Hf.
  unfold sk_decode in H. revert H. generalize (after ua ks). intros t. unfold nthZ. destruct (_ <? 0); [discriminate|].
  intros H. apply nth_error_In in H. exact H.
Qed.
Print Assumptions C66_table_partial.
(** The array of two strings, "hé" and the bytes ff fe. *)
Example C66_example : exists root x y,
  let e := mk_env true 4096 [67;104;195;169; 66;255;254;0; 96;2;128;5;128;4; 128;3] None in
  from_bytes e = Ret (Ok root) /\ arr_get e root 0 = Ret (Some x) /\ arr_get e root 1 = Ret (Some y) /\
  value_type e x = Ret TyString /\ to_data e x = Ret [104;195;169] /\ to_str e x = Ret [104;195;169] /\
  is_text [104;195;169] /\
  value_type e y = Ret TyString /\ to_data e y = Ret [255;254] /\ to_str e y = Ret [] /\ ~ is_text [255;254].
Proof.
  eexists _, _, _. cbv zeta. split; [vm_compute; reflexivity|]. split; [vm_compute; reflexivity|].
  split; [vm_compute; reflexivity|]. split; [vm_compute; reflexivity|]. split; [vm_compute; reflexivity|].
  split; [vm_compute; reflexivity|]. split; [exists [104; 233]; split; [repeat constructor; cbv; intuition discriminate|reflexivity]|].
  split; [vm_compute; reflexivity|]. split; [vm_compute; reflexivity|]. split; [vm_compute; reflexivity|].
  rewrite <- valid_iff. vm_compute. discriminate.
Qed.
Example C66_table_example : let ks := [[104;195;169]; [97;98]] in
  Forall is_text ks /\ (forall k, In k ks -> lenZ k <> 16) /\ after (fun c => c =? 233) ks = ks.
Proof.
  split; [repeat constructor; apply valid_iff; vm_compute; reflexivity|]. split; [|vm_compute; reflexivity].
  intros k [<-|[<-|[]]]; vm_compute; discriminate.
Qed.
(** The key "aaaaaaaaaaaaaaé" of 16 bytes is cut in the middle of its last character. *)
Theorem C66_refuted_16 : exists ua k t k', is_text k /\ encode_and_insert ua [] k = (t, Some 0) /\
  sk_decode t 0 = Some k' /\ ~ is_text k'.
Proof.
  exists (fun c => c =? 233), (repeat 97 14 ++ [195; 169]). eexists _, _.
  split; [apply valid_iff; vm_compute; reflexivity|]. split; [vm_compute; reflexivity|].
  split; [vm_compute; reflexivity|]. rewrite <- valid_iff. vm_compute. discriminate.
Qed.
Print Assumptions C66_refuted_16.

(** Validity and decoding as the standard has them, for all byte strings and all texts. *)
Theorem C66_utf8 : (forall bs, utf8_valid bs = true <-> is_text bs) /\
  (forall cs, Forall scalar cs -> utf8_chars (encode_text cs) = cs).
Proof. split; [exact valid_iff|exact chars_text]. Qed.
Print Assumptions C66_utf8.

(* ---------- C67 ---------- *)

(** As long as the table is not full, [encode_and_insert] takes exactly the keys of at most 16
    bytes made of letters, digits, '_' and '-'. *)
Theorem C67_which_keys : forall ua before cs, Forall scalar cs -> lenZ (after ua before) < 2048 ->
  (snd (encode_and_insert ua (after ua before) (encode_text cs)) <> None <->
   lenZ (encode_text cs) <= 16 /\ Forall (key_char ua) cs).
Proof. intros ua before. exact (accepted_keys ua (after ua before)). Qed.
Print Assumptions C67_which_keys.
(** An encoder with a table puts such a key of two or more bytes into the table and writes
    nothing; other keys leave the table as it is. *)
Theorem C67_encoder_shares : forall c e t cs vs st,
  Forall scalar cs -> 2 <= lenZ (encode_text cs) <= 16 -> Forall (key_char (c_ua c)) cs ->
  en_sk e = Some t -> lenZ t < 2048 -> en_stack e = CDict vs None :: st ->
  exists e' t' i, enc_step c e (OpKey (encode_text cs)) = Ret (e', Ok tt) /\ en_out e' = en_out e /\
    encode_and_insert (c_ua c) t (encode_text cs) = (t', Some i) /\ en_sk e' = Some t'.
Proof. exact key_shared. Qed.
Print Assumptions C67_encoder_shares.
Theorem C67_encoder_does_not_share : forall c e t cs vs st e' r,
  Forall scalar cs -> 2 <= lenZ (encode_text cs) -> ~ Forall (key_char (c_ua c)) cs ->
  en_sk e = Some t -> lenZ t < 2048 -> en_stack e = CDict vs None :: st ->
  enc_step c e (OpKey (encode_text cs)) = Ret (e', r) -> en_sk e' = Some t.
Proof. exact key_written_out. Qed.
Print Assumptions C67_encoder_does_not_share.
(** "h-é_1" is taken, "a b" and "a.b" are not. *)
Example C67_example : let ua := fun c => c =? 233 in
  Forall scalar [104;45;233;95;49] /\ lenZ (encode_text [104;45;233;95;49]) = 6 /\ Forall (key_char ua) [104;45;233;95;49] /\
  snd (encode_and_insert ua (after ua [[120]]) (encode_text [104;45;233;95;49])) = Some 1 /\
  ~ Forall (key_char ua) [97;32;98] /\ ~ Forall (key_char ua) [97;46;98] /\
  snd (encode_and_insert ua (after ua [[120]]) [97;32;98]) = None /\ snd (encode_and_insert ua (after ua [[120]]) [97;46;98]) = None.
Proof.
  cbv zeta. split; [repeat constructor; cbv; intuition discriminate|]. split; [reflexivity|].
  split; [repeat first [apply Forall_nil|apply Forall_cons]; unfold key_char; lia|]. split; [vm_compute; reflexivity|].
  assert (Hn : forall c, c < 128 -> ~ key_char (fun c => c =? 233) c -> ~ Forall (key_char (fun c => c =? 233)) [97; c; 98]).
  { intros c _ H Hf. inversion Hf as [|? ? _ H2]; subst. inversion H2; subst. auto. }
  split; [apply Hn; [lia|unfold key_char; lia]|]. split; [apply Hn; [lia|unfold key_char; lia]|]. split; vm_compute; reflexivity.
Qed.

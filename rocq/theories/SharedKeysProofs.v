(** Lemmas about key tables and their saved state. *)
From Verif Require Import Prelude Lib Varint Utf8 Float SharedKeys Decode Read Encodable Encoder BuilderSpec
  Stored StoredRead SlotProofs EncoderProofs EncoderInv EncoderClean Access PathSpec Lookup Path PathDoc ValueSpec Flat SharedKeysState SharedKeysSpec.
From Coq Require Import ZifyBool ZifyNat ZifyN Lia.
Ltac Zify.zify_post_hook ::= Z.div_mod_to_equations.
#[local] Existing Instance any_key.

Lemma insert_all_app ua : forall a t b, insert_all ua t (a ++ b) =
  (fst (insert_all ua (fst (insert_all ua t a)) b), snd (insert_all ua t a) ++ snd (insert_all ua (fst (insert_all ua t a)) b)).
Proof.
  induction a as [|k a IH]; intros t b; cbn [app insert_all fst snd]; [destruct (insert_all ua t b); reflexivity|].
  destruct (encode_and_insert ua t k) as [t1 x]. rewrite IH. destruct (insert_all ua t1 a) as [t2 l]. reflexivity.
Qed.
Lemma insert_all_ext ua : forall ks t, exists x, fst (insert_all ua t ks) = t ++ x.
Proof.
  induction ks as [|k ks IH]; intros t; cbn [insert_all fst]; [exists []; rewrite app_nil_r; reflexivity|].
  destruct (insert_ext ua t k) as [x Hx]. destruct (encode_and_insert ua t k) as [t1 a]. cbn [fst] in Hx. subst t1.
  destruct (IH (t ++ x)) as [y Hy]. destruct (insert_all ua (t ++ x) ks) as [t2 l]. cbn [fst] in *. exists (x ++ y). rewrite app_assoc. exact Hy.
Qed.

Lemma find_app k : forall t x i j, sk_find k i t = Some j -> sk_find k i (t ++ x) = Some j.
Proof.
  induction t as [|a t IH]; intros x i j H; cbn [sk_find app] in *; [discriminate|].
  destruct (bytes_eqb a k); [exact H|]. apply IH. exact H.
Qed.
Lemma find_last k : forall t i, sk_find k i t = None -> sk_find k i (t ++ [k]) = Some (i + lenZ t).
Proof.
  induction t as [|a t IH]; intros i H; cbn [sk_find app] in *.
  - assert (bytes_eqb k k = true) as -> by (apply bytes_eqb_eq; reflexivity). f_equal. cbn. lia.
  - destruct (bytes_eqb a k); [discriminate|]. rewrite (IH _ H), lenZ_cons. f_equal. lia.
Qed.

(** What one successful insertion does. *)
Lemma insert_step ua t k t' i : encode_and_insert ua t k = (t', Some i) ->
  sk_len t < MAX_KEYS /\ lenZ k <= 16 /\ can_encode ua k = true /\ sk_encode t' k = Some i /\
  ((t' = t /\ sk_encode t k = Some i) \/ (t' = t ++ [zstr_make k] /\ i = lenZ t /\ sk_encode t k = None)).
Proof.
  unfold encode_and_insert, sk_encode. destruct (negb (can_add ua t k)) eqn:E; [discriminate|]. apply negb_false_iff in E. intros H.
  unfold can_add, MAX_KEY_LEN in E. apply andb_true_iff in E as [E1 E3]. apply andb_true_iff in E1 as [E1 E2].
  split; [lia|]. split; [lia|]. split; [exact E3|].
  destruct (sk_find (zstr_make k) 0 t) as [j|] eqn:Ef; injection H as <- <-.
  - split; [exact Ef|]. left. auto.
  - split; [apply find_last; exact Ef|]. right. auto.
Qed.
Lemma insert_none ua t k t' : encode_and_insert ua t k = (t', None) -> t' = t /\ can_add ua t k = false.
Proof.
  unfold encode_and_insert. destruct (can_add ua t k) eqn:E; cbn [negb]; [|intros H; injection H as <-; auto].
  destruct (sk_find _ 0 t); discriminate.
Qed.

(* ---------- C30 ---------- *)

Lemma stays ua t k t' i later : encode_and_insert ua t k = (t', Some i) ->
  sk_encode (fst (insert_all ua t' later)) k = Some i.
Proof.
  intros H. apply insert_step in H as (_ & _ & _ & H & _). destruct (insert_all_ext ua later t') as [x ->].
  apply find_app. exact H.
Qed.
Lemma encode_decode t k i : sk_encode t k = Some i -> sk_decode t i = Some (zstr_make k).
Proof. intros H. apply sk_find_nth in H as [H _]. unfold sk_decode. rewrite Z.sub_0_r in H. exact H. Qed.
Lemma stays_decode ua t k t' i later : lenZ k <> 16 -> encode_and_insert ua t k = (t', Some i) ->
  sk_decode (fst (insert_all ua t' later)) i = Some k.
Proof.
  intros Hk H. pose proof (stays ua t k t' i later H) as Hs. apply encode_decode in Hs.
  apply insert_step in H as (_ & H & _). rewrite zstr_make_id in Hs by lia. exact Hs.
Qed.

(* ---------- C31 ---------- *)

Lemma insert_all_len ua : forall ks t, lenZ t <= 2048 -> lenZ (fst (insert_all ua t ks)) <= 2048.
Proof.
  induction ks as [|k ks IH]; intros t Ht; cbn [insert_all fst]; [exact Ht|].
  destruct (encode_and_insert ua t k) as [t1 a] eqn:E. assert (H1 : lenZ t1 <= 2048).
  { destruct a as [i|].
    - apply insert_step in E as (Hl & _ & _ & _ & [[-> _]|[-> _]]); [exact Ht|]. rewrite lenZ_app. change (lenZ [zstr_make k]) with 1.
      unfold sk_len, MAX_KEYS in Hl. lia.
    - apply insert_none in E as [-> _]. exact Ht. }
  specialize (IH t1 H1). destruct (insert_all ua t1 ks). exact IH.
Qed.
Lemma after_len ua ks : 0 <= lenZ (after ua ks) <= 2048.
Proof. split; [apply lenZ_nonneg|]. apply insert_all_len. cbn. lia. Qed.

Lemma id_range ua t k t' i : encode_and_insert ua t k = (t', Some i) -> 0 <= i <= 2047.
Proof.
  intros H. apply insert_step in H as (Hl & _ & _ & _ & H). unfold sk_len, MAX_KEYS in Hl.
  pose proof (lenZ_nonneg t). destruct H as [[_ H]|[_ [-> _]]]; [|lia].
  apply sk_find_nth in H as [H _]. apply nthZ_Some in H. lia.
Qed.

Lemma again ua t k t1 i later : encode_and_insert ua t k = (t1, Some i) ->
  let t2 := fst (insert_all ua t1 later) in
  sk_len t2 < MAX_KEYS -> encode_and_insert ua t2 k = (t2, Some i).
Proof.
  intros H t2 Hl. pose proof (stays ua t k t1 i later H) as Hs. fold t2 in Hs. apply insert_step in H as (_ & H1 & H2 & _).
  unfold encode_and_insert, can_add, MAX_KEY_LEN. rewrite H2. unfold sk_encode in Hs. rewrite Hs.
  destruct (sk_len t2 <? MAX_KEYS) eqn:E1; [|lia]. destruct (lenZ k <=? 16) eqn:E2; [|lia]. reflexivity.
Qed.

(** Inserting new keys one after another. *)
Lemma fresh_all ua : forall ks t, NoDup (t ++ ks) -> Forall (table_key ua) ks -> lenZ t + lenZ ks <= 2048 ->
  insert_all ua t ks = (t ++ ks, map (fun j => Some (lenZ t + Z.of_nat j)) (seq 0 (length ks))).
Proof.
  induction ks as [|k ks IH]; intros t Hn HF Hl; cbn [insert_all length seq map]; [rewrite app_nil_r; reflexivity|].
  inversion HF as [|? ? [Hk1 Hk2] HF2]; subst. rewrite lenZ_cons in Hl. pose proof (lenZ_nonneg ks).
  assert (E : encode_and_insert ua t k = (t ++ [k], Some (lenZ t))).
  { unfold encode_and_insert, can_add, MAX_KEY_LEN, sk_len, MAX_KEYS. rewrite Hk2.
    destruct (lenZ t <? 2048) eqn:E1; [|lia]. destruct (lenZ k <=? 16) eqn:E2; [|lia]. cbn [andb negb].
    rewrite zstr_make_id by exact Hk1. destruct (sk_find k 0 t) as [i|] eqn:Ef; [|reflexivity].
    exfalso. apply NoDup_remove_2 in Hn. apply Hn. apply in_or_app. left.
    apply sk_find_nth in Ef as [Ef _]. eapply nthZ_In. exact Ef. }
  rewrite E. rewrite (IH (t ++ [k])).
  - rewrite <- app_assoc. cbn [app]. f_equal. rewrite Z.add_0_r. f_equal. rewrite <- seq_shift, map_map. apply map_ext.
    intros j. rewrite lenZ_app. change (lenZ [k]) with 1. f_equal. lia.
  - rewrite <- app_assoc. exact Hn.
  - exact HF2.
  - rewrite lenZ_app. change (lenZ [k]) with 1. lia.
Qed.
Lemma fresh_ids ua ks : NoDup ks -> Forall (table_key ua) ks -> lenZ ks <= 2048 ->
  insert_all ua [] ks = (ks, map Some (upto (length ks))).
Proof.
  intros Hn HF Hl. rewrite (fresh_all ua ks []) by (auto; cbn; lia). unfold upto. rewrite map_map. reflexivity.
Qed.

(* ---------- C32 ---------- *)

Lemma distinct t k1 k2 i : lenZ k1 <= 15 -> lenZ k2 <= 15 -> sk_encode t k1 = Some i -> sk_encode t k2 = Some i -> k1 = k2.
Proof.
  intros H1 H2 E1 E2. apply encode_decode in E1, E2. rewrite E1 in E2. rewrite !zstr_make_id in E2 by lia. congruence.
Qed.
Lemma insert_all_in ua : forall ks t x, In x (fst (insert_all ua t ks)) -> In x t \/ exists k, In k ks /\ x = zstr_make k /\ lenZ k <= 16.
Proof.
  induction ks as [|k ks IH]; intros t x H; cbn [insert_all fst] in H; [left; exact H|].
  destruct (encode_and_insert ua t k) as [t1 a] eqn:E. assert (H' : In x (fst (insert_all ua t1 ks))) by (destruct (insert_all ua t1 ks); exact H).
  apply IH in H' as [H'|(k' & Hk & Hx & Hl)]; [|right; exists k'; cbn [In]; auto].
  destruct a as [i|].
  - apply insert_step in E as (_ & Hl & _ & _ & [[-> _]|[-> _]]); [left; exact H'|]. apply in_app_or in H' as [H'|[H'|[]]]; [left; exact H'|].
    right. exists k. cbn [In]. auto.
  - apply insert_none in E as [-> _]. left. exact H'.
Qed.
Lemma unknown ua ks k : lenZ k <= 15 -> (forall k', In k' ks -> lenZ k' <> 16) -> ~ In k ks -> sk_encode (after ua ks) k = None.
Proof.
  intros Hk H16 Hn. unfold sk_encode. apply sk_find_none. rewrite zstr_make_id by lia. intros H.
  apply insert_all_in in H as [[]|(k' & Hk' & -> & Hl)]. specialize (H16 k' Hk'). apply Hn. rewrite zstr_make_id by lia. exact Hk'.
Qed.

(* ---------- C33 ---------- *)

Lemma nodup_app {A} (a b : list A) : NoDup (a ++ b) -> NoDup a /\ NoDup b.
Proof.
  induction a as [|x a IH]; cbn [app]; intros H; [split; [constructor|exact H]|]. inversion H as [|? ? H1 H2]; subst.
  apply IH in H2 as [H2 H3]. split; [|exact H3]. constructor; [|exact H2]. intros Hi. apply H1. apply in_or_app. left. exact Hi.
Qed.

Lemma insert_all_wf ua : forall ks t, (forall k, In k ks -> lenZ k <> 16) -> table_wf ua t -> table_wf ua (fst (insert_all ua t ks)).
Proof.
  induction ks as [|k ks IH]; intros t Hk Ht; cbn [insert_all fst]; [exact Ht|].
  pose proof (insert_wf ua t k (Hk k (or_introl eq_refl)) Ht) as H1. destruct (encode_and_insert ua t k) as [t1 a]. cbn [fst] in H1.
  specialize (IH t1 (fun k' H => Hk k' (or_intror H)) H1). destruct (insert_all ua t1 ks). exact IH.
Qed.

(** Reading a state: an array of strings. *)
Fixpoint insert_state (ua : Z -> bool) (t : shared_keys) (ks : list (list Z)) : option shared_keys :=
  match ks with
  | [] => Some t
  | k :: ks' => match encode_and_insert ua t k with (_, None) => None | (t', Some _) => insert_state ua t' ks' end
  end.
Lemma insert_state_all ua : forall ks t, insert_state ua t ks =
  if forallb (fun a : option Z => match a with Some _ => true | None => false end) (snd (insert_all ua t ks))
  then Some (fst (insert_all ua t ks)) else None.
Proof.
  induction ks as [|k ks IH]; intros t; cbn [insert_state insert_all]; [reflexivity|].
  destruct (encode_and_insert ua t k) as [t1 [i|]]; [rewrite IH|]; destruct (insert_all ua t1 ks); reflexivity.
Qed.
Lemma state_loop_ok ua m : forall f it xs ks t,
  iter_collect f m it = Ret xs -> Forall2 (fun x k => value_type m x = Ret TyString /\ to_str m x = Ret k) xs ks ->
  state_loop f ua m it t = Ret (insert_state ua t ks).
Proof.
  induction f as [|f IH]; intros it xs ks t H HF; cbn [iter_collect state_loop] in *; [discriminate|].
  destruct (iter_next m it) as [[[x|] it']| | |] eqn:En; try discriminate; cbn [bind fst snd] in *.
  - destruct (iter_collect f m it') as [vs| | |] eqn:Ec; try discriminate. cbn [bind] in H. apply ret_inj in H. subst xs.
    inversion HF as [|? k ? ks' [H1 H2] HF' E1 E2]; subst. rewrite H1. cbn [bind]. cbn [vtype_eqb negb]. rewrite andb_false_r. rewrite H2. cbn [bind insert_state].
    destruct (encode_and_insert ua t k) as [t' [i|]]; [|reflexivity]. eapply IH; eauto.
  - apply ret_inj in H. subst xs. inversion HF; subst. reflexivity.
Qed.
Lemma mapM_Forall2 {A B} (f : A -> outcome B) : forall l l', mapM f l = Ret l' -> Forall2 (fun a b => f a = Ret b) l l'.
Proof.
  induction l as [|a l IH]; intros l' H; cbn [mapM] in H; [apply ret_inj in H; subst; constructor|].
  destruct (f a) as [b| | |] eqn:E; try discriminate. cbn [bind] in H. destruct (mapM f l) as [l2| | |]; try discriminate. cbn [bind] in H.
  apply ret_inj in H. subst. constructor; auto.
Qed.
Lemma state_of_tree ua m r ks : from_bytes m = Ret (Ok r) -> read_doc m r = Ret (TArr (map TStr ks)) ->
  from_state_bytes ua m = Ret (insert_state ua [] ks).
Proof.
  intros Hf Hr. unfold from_state_bytes. rewrite Hf. cbn [bind]. unfold from_state_value, as_array.
  unfold read_doc in Hr. destruct (fuel_of m) as [|f]; cbn [read_tree] in Hr; [discriminate|].
  destruct (value_type m r) as [ty| | |] eqn:Ety; try discriminate. cbn [bind] in *.
  destruct ty; try discriminate; try (repeat (match type of Hr with bind ?x _ = _ => destruct x; try discriminate; cbn [bind] in Hr end); discriminate).
  cbn [vtype_eqb]. destruct (arr_elems m r) as [xs| | |] eqn:Ex; try discriminate. cbn [bind] in Hr.
  destruct (mapM (read_tree f m) xs) as [l| | |] eqn:El; try discriminate. cbn [bind] in Hr. apply ret_inj in Hr. injection Hr as ->.
  unfold arr_elems in Ex. destruct (arr_iter m r) as [it| | |]; try discriminate. cbn [bind] in *.
  eapply state_loop_ok; [exact Ex|]. apply mapM_Forall2 in El. clear -El. revert ks El.
  induction xs as [|x xs IH]; intros ks El; inversion El as [|? b ? l Hb Hl E1 E2]; subst.
  - destruct ks; [constructor|discriminate].
  - destruct ks as [|k ks]; [discriminate|]. cbn [map] in E2. injection E2 as -> ->. constructor; [|apply IH; exact Hl].
    destruct f as [|f]; [discriminate|]. eapply read_str. exact Hb.
Qed.

(** The calls that save a state. *)
Lemma write_keys_run c : forall t e e' rs, enc_run c e (map OpValue (map EStr t) ++ [OpEndArray]) = Ret (e', rs) ->
  Forall (fun r => r = Ok tt) rs -> write_keys c e t = Ret (e', Some tt).
Proof.
  induction t as [|k t IH]; intros e e' rs H HF; cbn [map app enc_run enc_step write_keys] in *.
  - destruct (end_array c e) as [[e1 r1]| | |]; try discriminate. cbn [bind fst snd] in *. apply ret_inj in H. injection H as <- <-.
    inversion HF; subst. reflexivity.
  - destruct (write_value c e (EStr k)) as [[e1 r1]| | |]; try discriminate. cbn [bind fst snd] in *.
    destruct (enc_run c e1 _) as [[e2 r2]| | |] eqn:E; try discriminate. cbn [bind fst snd] in *. apply ret_inj in H. injection H as <- <-.
    inversion HF as [|? ? H1 H2]; subst. eapply IH; eauto.
Qed.
Lemma begin_cap n : 0 <= n -> n * 4 < two63 -> begin_array enc_new n = begin_array enc_new 0.
Proof.
  intros H0 H. unfold begin_array. destruct (two63 <=? n * 4) eqn:E; [lia|]. reflexivity.
Qed.
Lemma state_bytes c t e' bs : lenZ t * 4 < two63 ->
  enc_run c enc_new (arr_ops (map EStr t)) = Ret (e', repeat (Ok tt) (S (S (length (map EStr t))))) -> finish c e' = Ret bs ->
  get_state_bytes c t = Ret bs.
Proof.
  intros Hn H Hf. unfold get_state_bytes, write_state. rewrite begin_cap by (auto using lenZ_nonneg). unfold arr_ops in H. cbn [enc_run enc_step] in H.
  destruct (begin_array enc_new 0) as [[e1 r1]| | |]; try discriminate. cbn [bind fst snd] in *.
  destruct (enc_run c e1 (map OpValue (map EStr t) ++ [OpEndArray])) as [[e2 r2]| | |] eqn:E; try discriminate. cbn [bind fst snd] in *.
  apply ret_inj in H. change (repeat (Ok tt) (S (S (length (map EStr t))))) with (@Ok unit encode_error tt :: repeat (Ok tt) (S (length (map EStr t)))) in H.
  injection H as <- -> ->. rewrite (write_keys_run c t e1 e2 _ E).
  - cbn [bind fst]. exact Hf.
  - apply Forall_forall. intros x Hx. apply (repeat_spec (S (length (map EStr t))) (Ok tt)). exact Hx.
Qed.

Lemma str_outside k : 0 <= outside (EStr k).
Proof.
  unfold outside. destruct (to_sized_value (EStr k)); [lia|]. cbn [fleece_size]. unfold bytes_fleece_size, varint_size.
  pose proof (lenZ_nonneg k). pose proof (Z.log2_nonneg (lenZ k)). destruct (lenZ k <=? 1), (lenZ k <=? 14), (lenZ k =? 0); lia.
Qed.
Lemma str_content t : 0 <= content (map EStr t).
Proof.
  induction t as [|k t IH]; [cbn; lia|]. change (content (map EStr (k :: t))) with (outside (EStr k) + content (map EStr t)).
  pose proof (str_outside k). lia.
Qed.
(** The saved state of keys of 2 to 15 bytes is fine unless they take 16380 or 16382 bytes. *)
Lemma key_outside k : 2 <= lenZ k <= 15 -> to_sized_value (EStr k) = None /\ 4 <= outside (EStr k) <= 18.
Proof.
  intros Hk. assert (E : to_sized_value (EStr k) = None).
  { destruct k as [|a [|b k]]; try (cbn in Hk; lia). reflexivity. }
  split; [exact E|]. unfold outside. rewrite E. cbn [fleece_size]. unfold bytes_fleece_size.
  destruct (lenZ k <=? 1) eqn:E1; [lia|]. destruct (lenZ k <=? 14) eqn:E2; [lia|].
  replace (lenZ k) with 15 by lia. vm_compute. split; discriminate.
Qed.
Lemma keys_flat t : Forall (fun k => 2 <= lenZ k <= 15) t -> lenZ t <= 2048 ->
  table_bytes t <> 16380 -> table_bytes t <> 16382 -> flat_ok (map EStr t).
Proof.
  intros HF Hl H1 H2. unfold table_bytes in *. set (n := content (map EStr t)) in *.
  assert (Hc : 0 <= n <= 18 * lenZ t).
  { unfold n. clear -HF. induction HF as [|k t Hk _ IH]; [cbn; lia|]. change (content (map EStr (k :: t))) with (outside (EStr k) + content (map EStr t)).
    rewrite lenZ_cons. destruct (key_outside k Hk). lia. }
  pose proof (content_even (map EStr t)) as He. fold n in He.
  assert (Hr : forall d, d <= MAX_NARROW -> reach d (map EStr t) = true).
  { clear -HF. induction HF as [|k t Hk _ IH]; intros d Hd; [reflexivity|]. cbn [map reach]. destruct (key_outside k Hk) as [-> Ho].
    rewrite IH by lia. rewrite andb_true_r. lia. }
  assert (Hh : 2 <= header (lenZ t) <= 4).
  { pose proof (lenZ_nonneg t). unfold header, hdr_fleece_size, VARINT_COUNT. destruct (2047 <=? lenZ t) eqn:E; [|cbn; lia].
    assert (lenZ t = 2047 \/ lenZ t = 2048) as [-> | ->] by lia; vm_compute; split; discriminate. }
  assert (Hns : forallb no_short_text (map EStr t) = true).
  { clear -HF. induction HF as [|k t Hk _ IH]; [reflexivity|]. cbn [map forallb no_short_text]. rewrite IH, andb_true_r. lia. }
  split; rewrite lenZ_map; fold n; [unfold MAX_WIDE; lia|].
  destruct (Z_lt_le_dec MAX_NARROW n) as [Hx|Hx]; [left; exact Hx|right]. split; [exact Hns|]. apply Hr. unfold MAX_NARROW in *. lia.
Qed.
Lemma state_tree c t : sort_ok (c_sort c) -> Forall wf_enc (map EStr t) -> flat_ok (map EStr t) ->
  exists bs, get_state_bytes c t = Ret bs /\ forall dbg base, addressable base bs ->
    exists r, from_bytes (mk_env dbg base bs None) = Ret (Ok r) /\ read_doc (mk_env dbg base bs None) r = Ret (TArr (map TStr t)).
Proof.
  intros Hs Hw Hfl.
  assert (Hts : Forall2 (fun v t => stored_value v = Some t) (map EStr t) (map TStr t)).
  { clear. induction t as [|k t IH]; constructor; auto. }
  destruct (flat_doc c (map EStr t) (map TStr t) Hs Hw Hfl Hts) as (e' & bs & Hr & Hf & H).
  exists bs. split.
  - eapply state_bytes; eauto. destruct Hfl as [Hfl _]. rewrite lenZ_map in Hfl. 
    assert (0 <= content (map EStr t)).
    { apply str_content. }
    unfold MAX_WIDE, two63 in *. lia.
  - intros dbg base Ha. destruct (H dbg base Ha) as (Hok & r & H1 & _ & H2). exists r. split; [exact H1|].
    apply read_vstored; assumption.
Qed.
Lemma state_round_trip c ua t : sort_ok (c_sort c) -> table_wf ua t -> lenZ t <= 2048 ->
  Forall wf_enc (map EStr t) -> flat_ok (map EStr t) ->
  exists bs, get_state_bytes c t = Ret bs /\ forall dbg base, addressable base bs ->
    from_state_bytes ua (mk_env dbg base bs None) = Ret (Some t).
Proof.
  intros Hs [Hn HF] Hl Hw Hfl. destruct (state_tree c t Hs Hw Hfl) as (bs & Hb & H). exists bs. split; [exact Hb|].
  intros dbg base Ha. destruct (H dbg base Ha) as (r & H1 & H2). rewrite (state_of_tree ua _ r t H1 H2). f_equal.
  assert (G : forall ks t0, NoDup (t0 ++ ks) -> Forall (table_key ua) ks -> lenZ t0 + lenZ ks <= 2048 -> insert_state ua t0 ks = Some (t0 ++ ks)).
  { clear. induction ks as [|k ks IH]; intros t0 Hn HF Hl; cbn [insert_state]; [rewrite app_nil_r; reflexivity|].
    pose proof (fresh_all ua [k] t0) as E. inversion HF as [|? ? Hk HF']; subst. rewrite lenZ_cons in Hl. pose proof (lenZ_nonneg ks).
    assert (Hn' : NoDup ((t0 ++ [k]) ++ ks)) by (rewrite <- app_assoc; exact Hn).
    cbn [insert_all] in E. destruct (encode_and_insert ua t0 k) as [t1 a]. specialize (E (proj1 (nodup_app _ _ Hn')) (Forall_cons _ Hk (Forall_nil _)) ltac:(cbn; lia)).
    injection E as -> ->. rewrite IH; auto; [rewrite <- app_assoc; reflexivity|]. rewrite lenZ_app. change (lenZ [k]) with 1. lia. }
  apply (G t []); auto.
Qed.

Lemma state_restored c ua ks : sort_ok (c_sort c) ->
  Forall (fun k => wf_enc (EStr k) /\ 2 <= lenZ k /\ lenZ k <> 16) ks ->
  table_bytes (after ua ks) <> 16380 -> table_bytes (after ua ks) <> 16382 ->
  exists bs, get_state_bytes c (after ua ks) = Ret bs /\ forall dbg base, addressable base bs ->
    from_state_bytes ua (mk_env dbg base bs None) = Ret (Some (after ua ks)).
Proof.
  intros Hs HF H1 H2. rewrite Forall_forall in HF.
  assert (Hwf : table_wf ua (after ua ks)).
  { apply insert_all_wf; [intros k Hk; apply HF; exact Hk|]. split; constructor. }
  assert (Hin : forall x, In x (after ua ks) -> In x ks).
  { intros x Hx. pose proof Hx as Hx'. apply insert_all_in in Hx as [[]|(k & Hk & -> & Hl)]. rewrite zstr_make_id; [exact Hk|].
    destruct (HF k Hk) as (_ & _ & ?). lia. }
  pose proof (after_len ua ks). apply state_round_trip; auto; try lia.
  - apply Forall_forall. intros v Hv. apply in_map_iff in Hv as (k & <- & Hk). apply HF. auto.
  - apply keys_flat; auto; [|lia]. destruct Hwf as [_ Hwf]. rewrite Forall_forall in Hwf. apply Forall_forall. intros k Hk.
    destruct (Hwf k Hk) as [? _]. destruct (HF k (Hin k Hk)) as (_ & ? & _). lia.
Qed.
(** The restored table gives the same numbers. *)
Lemma state_same c ua ks : sort_ok (c_sort c) ->
  Forall (fun k => wf_enc (EStr k) /\ 2 <= lenZ k /\ lenZ k <> 16) ks ->
  table_bytes (after ua ks) <> 16380 -> table_bytes (after ua ks) <> 16382 ->
  exists bs, get_state_bytes c (after ua ks) = Ret bs /\ forall dbg base, addressable base bs ->
    exists t', from_state_bytes ua (mk_env dbg base bs None) = Ret (Some t') /\
      sk_len t' = sk_len (after ua ks) /\ (forall k, sk_encode t' k = sk_encode (after ua ks) k) /\
      (forall i, sk_decode t' i = sk_decode (after ua ks) i).
Proof.
  intros Hs HF H1 H2. destruct (state_restored c ua ks Hs HF H1 H2) as (bs & Hb & H). exists bs. split; [exact Hb|].
  intros dbg base Ha. exists (after ua ks). split; [apply H; exact Ha|]. auto.
Qed.

(* ---------- large tables ---------- *)

Lemma many_nodup n : NoDup (many_keys n).
Proof.
  unfold many_keys. apply FinFun.Injective_map_NoDup; [|apply seq_NoDup]. intros a b H. cbv zeta in H.
  assert (H1 := f_equal (fun l => nth 0 l 0) H). assert (H2 := f_equal (fun l => nth 1 l 0) H). assert (H3 := f_equal (fun l => nth 2 l 0) H).
  clear H. cbn [nth] in H1, H2, H3. lia.
Qed.
Lemma lost_nodup : NoDup lost_keys.
Proof.
  assert (Hi : forall k, In k (map (fun k => k ++ repeat 97 12) (many_keys 909)) -> lenZ k = 15).
  { intros k Hk. apply in_map_iff in Hk as (x & <- & Hx). apply in_map_iff in Hx as (j & <- & _). reflexivity. }
  unfold lost_keys. apply NoDup_incl_NoDup with (l := [repeat 98 14; [97;98]] ++ map (fun k => k ++ repeat 97 12) (many_keys 909)).
  - constructor; [|constructor].
    + intros [H|H]; [discriminate H|]. apply Hi in H. discriminate H.
    + intros H. apply Hi in H. discriminate H.
    + apply FinFun.Injective_map_NoDup; [|apply many_nodup]. intros a b H. apply app_inv_tail in H. exact H.
  - rewrite !app_length. cbn [length]. lia.
  - intros k Hk. rewrite in_app_iff in *. tauto.
Qed.
Definition table_keysb (ua : Z -> bool) (ks : list (list Z)) : bool := forallb (fun k => (lenZ k <=? 15) && can_encode ua k) ks.
Lemma table_keysb_ok ua ks : table_keysb ua ks = true -> Forall (table_key ua) ks.
Proof.
  unfold table_keysb. rewrite forallb_forall. intros H. apply Forall_forall. intros k Hk. specialize (H k Hk). apply andb_prop in H as [H1 H2]. split; [lia|exact H2].
Qed.
Lemma refused ua t k : MAX_KEYS <= sk_len t -> encode_and_insert ua t k = (t, None).
Proof.
  intros H. unfold encode_and_insert, can_add. replace (sk_len t <? MAX_KEYS) with false by lia. reflexivity.
Qed.
Lemma after_fresh ua ks : NoDup ks -> Forall (table_key ua) ks -> lenZ ks <= 2048 -> after ua ks = ks.
Proof. intros H1 H2 H3. unfold after. rewrite (fresh_ids ua ks H1 H2 H3). reflexivity. Qed.

(** From reading a value as a tree to the individual accessors, and documents that are one flat
    array. *)
From Verif Require Import Prelude Lib Varint VarintProofs Utf8 Float SharedKeys
  Decode Read Encodable Encoder BuilderSpec Holds Repr EncodableProofs Stored StoredRead SlotProofs
  EncoderProofs EncoderInv EncoderClean LayoutSpec EncoderLayout EncoderProtocol Isort PathSpec Lookup Path ValueSpec.
From Coq Require Import ZifyBool ZifyNat ZifyN Sorted Permutation.
Ltac Zify.zify_post_hook ::= Z.div_mod_to_equations.
#[local] Existing Instance any_key.

Lemma wrap_i64_range z : - two63 <= wrap_i64 z < two63.
Proof. unfold wrap_i64, two63, two64. lia. Qed.
Lemma wrap_i16_range z : -32768 <= wrap_i16 z < 32768.
Proof. unfold wrap_i16, two16. lia. Qed.
Lemma short_range i : -32768 <= short_of_12bit i < 32768.
Proof. unfold short_of_12bit. destruct (_ =? 0); apply wrap_i16_range. Qed.

Lemma ret_inj {A} (x y : A) : Ret x = Ret y -> x = y.
Proof. congruence. Qed.
Ltac bsplit H m := destruct m eqn:?; try discriminate H; cbn [bind] in H.

Lemma read_int e x z f : read_tree (S f) e x = Ret (TInt z) ->
  (- two63 <= z < two63 -> to_int e x = Ret z) /\
  (0 <= z < two64 -> to_unsigned_int e x = Ret z) /\
  (- two63 <= z < two63 -> to_unsigned_int e x = Ret (wrap_u64 z)).
Proof.
  intros H. cbn [read_tree] in H. destruct (value_type e x) as [t| | |] eqn:Et; try discriminate. cbn [bind] in H.
  assert (Hint : exists w, to_int e x = Ret w /\ - two63 <= w < two63 /\ (w = z \/ wrap_u64 w = z)).
  { assert (Hcase : (t = TyShort \/ t = TyInt) /\ to_int e x = Ret z \/ t = TyUnsignedInt /\ exists w, to_int e x = Ret w /\ wrap_u64 w = z).
    { destruct t; try discriminate;
        repeat (match type of H with bind ?m _ = _ => destruct m eqn:?Em; try discriminate; cbn [bind] in H end); try discriminate.
      - injection H as ->. left. auto.
      - injection H as ->. left. auto.
      - injection H as ->. right. split; [reflexivity|]. unfold to_unsigned_int in Em.
        destruct (to_int e x) as [w| | |]; try discriminate. cbn [bind] in Em. 
        apply ret_inj in Em. exists w.
        split; [reflexivity|exact Em]. }
    assert (Hr : forall w, (t = TyShort \/ t = TyInt \/ t = TyUnsignedInt) -> to_int e x = Ret w -> - two63 <= w < two63).
    { intros w Ht Hw. unfold to_int in Hw. rewrite Et in Hw. cbn [bind] in Hw. unfold int_payload in Hw.
      destruct Ht as [-> | [-> | ->]].
      - destruct (get_short e x) as [i| | |]; try discriminate. cbn [bind] in Hw. injection Hw as <-. pose proof (short_range i). unfold two63. lia.
      - destruct (vbyte e x 0) as [b0| | |]; try discriminate. cbn [bind] in Hw. destruct (v_len x <? 1); [discriminate|].
        destruct (raw_bytes e (v_pos x + 1) (Z.land b0 7 + 1)) as [bs| | |]; try discriminate. cbn [bind] in Hw. injection Hw as <-. apply wrap_i64_range.
      - destruct (vbyte e x 0) as [b0| | |]; try discriminate. cbn [bind] in Hw. destruct (v_len x <? 1); [discriminate|].
        destruct (raw_bytes e (v_pos x + 1) (Z.land b0 7 + 1)) as [bs| | |]; try discriminate. cbn [bind] in Hw. injection Hw as <-. apply wrap_i64_range. }
    destruct Hcase as [[Ht Hz]|[Ht (w & Hw & Hz)]].
    - exists z. split; [exact Hz|]. split; [apply (Hr z); [tauto|exact Hz]|auto].
    - exists w. split; [exact Hw|]. split; [apply (Hr w); [tauto|exact Hw]|auto]. }
  destruct Hint as (w & Hw & Hr & Hz). unfold to_unsigned_int. rewrite Hw. cbn [bind].
  unfold wrap_u64, two63, two64 in *.
  split; [|split]; intros Hb; f_equal; lia.
Qed.
Lemma read_f64 e x b f : read_tree (S f) e x = Ret (TF64 b) -> to_double e x = Ret b.
Proof.
  intros H. cbn [read_tree] in H. destruct (value_type e x) as [t| | |] eqn:Et; try discriminate. cbn [bind] in H.
  destruct t; try discriminate; repeat (match type of H with bind ?m _ = _ => destruct m eqn:?Em; try discriminate; cbn [bind] in H end);
    try discriminate; injection H as <-; reflexivity.
Qed.
Lemma read_f32 e x b f : read_tree (S f) e x = Ret (TF32 b) -> to_float e x = Ret b.
Proof.
  intros H. cbn [read_tree] in H. destruct (value_type e x) as [t| | |] eqn:Et; try discriminate. cbn [bind] in H.
  destruct t; try discriminate; repeat (match type of H with bind ?m _ = _ => destruct m eqn:?Em; try discriminate; cbn [bind] in H end);
    try discriminate; injection H as <-; reflexivity.
Qed.
Lemma read_str e x s f : read_tree (S f) e x = Ret (TStr s) -> value_type e x = Ret TyString /\ to_str e x = Ret s.
Proof.
  intros H. cbn [read_tree] in H. destruct (value_type e x) as [t| | |] eqn:Et; try discriminate. cbn [bind] in H.
  destruct t; try discriminate; repeat (match type of H with bind ?m _ = _ => destruct m eqn:?Em; try discriminate; cbn [bind] in H end);
    try discriminate; injection H as <-; auto.
Qed.
Lemma str_data e x s : value_type e x = Ret TyString -> to_str e x = Ret s -> s <> [] -> to_data e x = Ret s.
Proof.
  intros Ht Hs Hn. unfold to_str in Hs. unfold to_data. rewrite Ht in *. cbn [bind] in *. destruct (get_data e x); try discriminate. cbn [bind] in *.
  destruct (slice_content e a); try discriminate. cbn [bind] in *. destruct (utf8_valid a0); congruence.
Qed.
Lemma read_data e x s f : read_tree (S f) e x = Ret (TData s) -> value_type e x = Ret TyData /\ to_data e x = Ret s.
Proof.
  intros H. cbn [read_tree] in H. destruct (value_type e x) as [t| | |] eqn:Et; try discriminate. cbn [bind] in H.
  destruct t; try discriminate; repeat (match type of H with bind ?m _ = _ => destruct m eqn:?Em; try discriminate; cbn [bind] in H end);
    try discriminate; injection H as <-; auto.
Qed.
Lemma read_bool e x b f : read_tree (S f) e x = Ret (TBool b) ->
  value_type e x = Ret (if b then TyTrue else TyFalse) /\ to_bool e x = Ret b.
Proof.
  intros H. cbn [read_tree] in H. destruct (value_type e x) as [t| | |] eqn:Et; try discriminate. cbn [bind] in H.
  destruct t; try discriminate; repeat (match type of H with bind ?m _ = _ => destruct m eqn:?Em; try discriminate; cbn [bind] in H end);
    try discriminate; injection H as <-;
    unfold to_bool in Em; rewrite Et in Em; cbn [bind] in Em; injection Em as <-; auto.
Qed.
Lemma read_null e x f : read_tree (S f) e x = Ret TNull -> value_type e x = Ret TyNull.
Proof.
  intros H. cbn [read_tree] in H. destruct (value_type e x) as [t| | |] eqn:Et; try discriminate. cbn [bind] in H.
  destruct t; try discriminate; try reflexivity; repeat (match type of H with bind ?m _ = _ => destruct m eqn:?Em; try discriminate; cbn [bind] in H end); discriminate.
Qed.
Lemma read_undef e x f : read_tree (S f) e x = Ret TUndef -> value_type e x = Ret TyUndefined.
Proof.
  intros H. cbn [read_tree] in H. destruct (value_type e x) as [t| | |] eqn:Et; try discriminate. cbn [bind] in H.
  destruct t; try discriminate; try reflexivity; repeat (match type of H with bind ?m _ = _ => destruct m eqn:?Em; try discriminate; cbn [bind] in H end); discriminate.
Qed.

(* ---------- flat arrays ---------- *)

Lemma b_run_app ops1 : forall b ops2, b_run b (ops1 ++ ops2) =
  (fst (b_run (fst (b_run b ops1)) ops2), snd (b_run b ops1) ++ snd (b_run (fst (b_run b ops1)) ops2)).
Proof.
  induction ops1 as [|o ops1 IH]; intros b ops2; cbn [app b_run fst snd]; [destruct (b_run b ops2); reflexivity|].
  destruct (b_step b o); cbn [fst snd]; rewrite IH; reflexivity.
Qed.
Lemma b_run_values vs : forall l, b_run (mk_b [FArr l] None) (map OpValue vs) =
  (mk_b [FArr (l ++ map tree_of vs)] None, map (fun _ => Ok tt) vs).
Proof.
  induction vs as [|v vs IH]; intros l; cbn [map b_run]; [rewrite app_nil_r; reflexivity|].
  cbn [b_step b_stack add_child b_root]. rewrite IH. cbn [fst snd]. rewrite <- app_assoc. reflexivity.
Qed.
Lemma b_run_arr vs : b_run b_init (arr_ops vs) =
  (mk_b [] (Some (TArr (map tree_of vs))), repeat (Ok tt) (S (S (length vs)))).
Proof.
  unfold arr_ops. cbn [b_run b_step]. unfold b_begin. cbn [b_init b_root b_stack].
  rewrite b_run_app, b_run_values. cbn [fst snd b_run b_step b_stack b_pop b_root close_frame app].
  f_equal. cbn [repeat]. f_equal. clear. induction vs as [|v vs IH]; [reflexivity|]. cbn [map app length]. rewrite IH. reflexivity.
Qed.
Lemma arr_keys_ok vs : keys_ok false (arr_ops vs).
Proof. cbn [keys_ok arr_ops]. induction vs; cbn [map app keys_ok]; auto. Qed.
Lemma polite_all_ok ops : forall b, (b_root b <> None -> b_stack b = []) ->
  Forall (eq (Ok tt)) (snd (b_run b ops)) -> polite b ops.
Proof. intros b H1 H2. apply accepted_polite; assumption. Qed.

Lemma sk_none_run c : forall ops e e' rs, enc_run c e ops = Ret (e', rs) -> en_sk e = None ->
  (forall t, ~ In (OpSetSharedKeys t) ops) -> en_sk e' = None.
Proof.
  induction ops as [|o ops IH]; intros e e' rs H Hsk Hno; cbn [enc_run] in H.
  - injection H as <- <-. exact Hsk.
  - destruct (enc_step c e o) as [[e1 r1]| | |] eqn:E; try discriminate. cbn [bind fst snd] in H.
    destruct (enc_run c e1 ops) as [[e2 r2]| | |] eqn:E2; try discriminate. cbn [bind fst snd] in H. injection H as <- <-.
    apply (IH e1 e2 r2 E2); [|intros t Hin; apply (Hno t); right; exact Hin].
    apply step_ext in E as (_ & Hs & _). apply Hs. split; [exact Hsk|]. intros t ->. apply (Hno t). left. reflexivity.
Qed.

(** The element at [i] of a flat array of good values. *)
Lemma flat_element c vs i v :
  sort_ok (c_sort c) -> Forall good_op (map OpValue vs) ->
  layout_ok (c_ua c) 0 (arr_ops vs) -> ops_size (arr_ops vs) <= MAX_WIDE ->
  nthZ vs i = Some v ->
  exists e' bs, enc_run c enc_new (arr_ops vs) = Ret (e', repeat (Ok tt) (S (S (length vs)))) /\
    finish c e' = Ret bs /\
    forall dbg base, addressable base bs ->
    let m := mk_env dbg base bs None in
    exists r x, from_bytes m = Ret (Ok r) /\ from_bytes_unchecked m = Ret r /\ as_array m r = Ret (Some r) /\
      arr_len m r = Ret (lenZ vs) /\ arr_get m r i = Ret (Some x) /\
      forall f, is_coll (tree_of v) = false -> read_tree (S f) m x = Ret (tree_of v).
Proof.
  intros Hs Hg Hl Hsz Hi. assert (Hg' : Forall good_op (arr_ops vs)).
  { unfold arr_ops. constructor; [exact eq_refl|]. apply Forall_app. split; [exact Hg|]. constructor; [exact I|constructor]. }
  pose proof (b_run_arr vs) as Hb.
  assert (Hp : polite b_init (arr_ops vs)).
  { apply polite_all_ok; [intros Hx; exfalso; apply Hx; reflexivity|]. rewrite Hb; cbn [snd]. apply Forall_forall. intros r Hr. apply repeat_spec in Hr. auto. }
  destruct (any_document c [] (arr_ops vs) Hs eq_refl Hg' (arr_keys_ok vs) Hp (strings_any _ _ _) Hl Hsz)
    as (e' & D & Er & Ef & _ & Hlen & Hd).
  rewrite Hb in Er, Hd. cbn [fst snd] in Er, Hd. cbn [app] in *.
  exists e', D. split; [exact Er|]. split; [exact Ef|]. intros dbg base [Hb1 Hb2].
  assert (Esk : en_sk e' = None).
  { eapply sk_none_run; [exact Er|reflexivity|]. intros t Hin. unfold arr_ops in Hin. destruct Hin as [|Hin]; [discriminate|].
    apply in_app_or in Hin as [Hin|[|[]]]; [|discriminate]. apply in_map_iff in Hin as (w & ? & _). discriminate. }
  rewrite Esk in Hd. destruct (Hd _ eq_refl) as (r & t' & Hts & Hall). destruct (Hall dbg base None Hb1 Hb2) as (Hf & Hfu & Hv).
  assert (Hok : env_ok (mk_env dbg base D None)).
  { unfold env_ok; cbn [e_base e_data]. unfold MAX_WIDE, two63 in *. lia. }
  apply tsim_arr in Hts as (ms & -> & HF).
  assert (Hi' : nthZ (map tree_of vs) i = Some (tree_of v)) by (rewrite nthZ_map, Hi; reflexivity).
  destruct (Forall2_nthZ _ _ _ HF i _ Hi') as (t2 & Ht2 & Hsim).
  destruct (arr_get_stored _ None Hok ms r i t2 Hv Ht2) as (x & Ha & Hx & Hvx).
  exists r, x. cbv zeta. split; [exact Hf|]. split; [exact Hfu|]. split; [exact Ha|]. split.
  { rewrite (arr_len_stored _ None Hok ms r Hv). rewrite <- (Forall2_lenZ _ _ _ HF), lenZ_map. reflexivity. }
  split; [exact Hx|]. intros f Hc. apply tsim_scalar in Hsim; [|exact Hc]. subst t2.
  destruct (vstored_scalar _ None _ x Hc Hvx) as (ty & _ & _ & Hr). apply Hr.
Qed.

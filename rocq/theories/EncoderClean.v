(** Facts about the encoder that hold for every run, and the documents in which no narrow
    slot is ever damaged. *)
From Verif Require Import Prelude Lib Varint VarintProofs Utf8 Float SharedKeys
  Decode Read Encodable Encoder BuilderSpec LayoutSpec Holds Repr EncodableProofs Stored StoredRead SlotProofs
  EncoderProofs EncoderInv.
From Coq Require Import ZifyBool ZifyNat ZifyN Sorted Permutation.
Ltac Zify.zify_post_hook ::= Z.div_mod_to_equations.

Section KP.
Context {SP : KeyPred}.

(* ---------- what the pieces of the encoder leave alone ---------- *)

(** [e'] is [e] with bytes appended (so that the length is even). *)
Definition grown (e e' : enc) : Prop :=
  en_stack e' = en_stack e /\ en_sk e' = en_sk e /\ en_closed e' = en_closed e /\
  (exists X, en_out e' = en_out e ++ X) /\
  (lenZ (en_out e) mod 2 = 0 -> lenZ (en_out e') mod 2 = 0).

Lemma grown_refl e : grown e e.
Proof. repeat split; auto. exists []. rewrite app_nil_r. reflexivity. Qed.
Lemma grown_trans a b c : grown a b -> grown b c -> grown a c.
Proof.
  intros (A1 & A2 & A3 & [X A4] & A5) (B1 & B2 & B3 & [Y B4] & B5).
  split; [congruence|]. split; [congruence|]. split; [congruence|].
  split; [exists (X ++ Y); rewrite B4, A4, app_assoc; reflexivity|auto].
Qed.
Lemma grown_len a b : grown a b -> lenZ (en_out a) <= lenZ (en_out b).
Proof. intros (_ & _ & _ & [X ->] & _). rewrite lenZ_app. pose proof (lenZ_nonneg X). lia. Qed.

Lemma enc_write_grown c e v w k e' off :
  enc_write c e v w k = Ret (e', off) -> grown e e' /\ off = wrap_u32 (lenZ (en_out e)).
Proof.
  unfold enc_write. set (n := if w && negb k then Z.max (fleece_size v) 4 else fleece_size v).
  destruct (write_to (c_dbg c) v n w) as [[bs|]| | |]; try discriminate. cbn [bind].
  destruct (lenZ bs =? n); [|discriminate]. intros H. injection H as <- <-. split; [|reflexivity].
  split; [reflexivity|]. split; [reflexivity|]. split; [reflexivity|].
  cbn [set_out en_out]. split.
  - unfold pad_even. destruct (lenZ (en_out e ++ bs) mod 2 =? 0).
    + exists bs. reflexivity.
    + exists (bs ++ [0]). rewrite app_assoc. reflexivity.
  - intros _. rewrite pad_even_len. lia.
Qed.

Lemma write_slots_grown c w : forall vs e e', write_slots c e w vs = Ret e' -> grown e e'.
Proof.
  induction vs as [|s vs IH]; intros e e' H; cbn [write_slots] in H.
  - injection H as <-. apply grown_refl.
  - destruct (enc_write c e (ESized s) w false) as [[e1 o]| | |] eqn:E; try discriminate. cbn [bind fst] in H.
    apply enc_write_grown in E as [G _]. eapply grown_trans; eauto.
Qed.
Lemma write_entries_grown c w : forall vs e e' r, write_entries c e w vs = Ret (e', r) -> grown e e'.
Proof.
  induction vs as [|d vs IH]; intros e e' r H; cbn [write_entries] in H.
  - injection H as <- <-. apply grown_refl.
  - destruct (dictkey_sized (de_key d)) as [[ks|]| | |]; try discriminate; cbn [bind] in H;
      [|injection H as <- <-; apply grown_refl].
    destruct (enc_write c e (ESized ks) w false) as [[e1 o]| | |] eqn:E; try discriminate. cbn [bind fst] in H.
    destruct (enc_write c e1 (ESized (de_val d)) w false) as [[e2 o2]| | |] eqn:E2; try discriminate. cbn [bind fst] in H.
    apply enc_write_grown in E as [G _]. apply enc_write_grown in E2 as [G2 _].
    eapply grown_trans; [exact G|]. eapply grown_trans; eauto.
Qed.

(* ---------- C15: evenness, for every run ---------- *)

Definition out_even (e : enc) : Prop := lenZ (en_out e) mod 2 = 0.

Lemma finished_even c e p e' r : finished_collection c e p = Ret (e', r) -> out_even e -> out_even e'.
Proof.
  unfold finished_collection, out_even. intros H He.
  destruct (en_stack e) as [|top st].
  - destruct (u32_sub _ _ _) as [off| | |]; try discriminate. cbn [bind] in H.
    destruct (off <=? MAX_NARROW).
    + destruct (new_pointer off); [|discriminate].
      destruct (enc_write c e _ _ _) as [[e1 o1]| | |] eqn:E; try discriminate. cbn [bind fst] in H.
      injection H as <- <-. apply enc_write_grown in E as [(_ & _ & _ & _ & G) _]. cbn [set_closed en_out]. auto.
    + destruct (new_pointer off); [|injection H as <- <-; exact He].
      destruct (enc_write c e _ _ _) as [[e1 o1]| | |] eqn:E; try discriminate. cbn [bind fst] in H.
      destruct (new_pointer 4); [|discriminate].
      destruct (enc_write c e1 _ _ _) as [[e2 o2]| | |] eqn:E2; try discriminate. cbn [bind fst] in H.
      injection H as <- <-. apply enc_write_grown in E as [(_ & _ & _ & _ & G) _].
      apply enc_write_grown in E2 as [(_ & _ & _ & _ & G2) _]. cbn [set_closed en_out]. auto.
  - destruct (new_pointer p); [|injection H as <- <-; exact He].
    destruct top as [vs|vs [k|]]; injection H as <- <-; exact He.
Qed.

Lemma push_key_out e k : en_out (fst (push_key e k)) = en_out e.
Proof. unfold push_key. destruct (en_stack e) as [|[vs|vs [k2|]] st]; reflexivity. Qed.
Lemma push_value_out e s : en_out (fst (push_value e s)) = en_out e.
Proof. unfold push_value. destruct (en_stack e) as [|[vs|vs [k2|]] st]; reflexivity. Qed.
Lemma Ret_inj {A} (a b : A) : Ret a = Ret b -> a = b.
Proof. congruence. Qed.

Lemma step_even c e o e' r : enc_step c e o = Ret (e', r) -> out_even e -> out_even e'.
Proof.
  unfold out_even. intros H He. destruct o as [k|v|n| | | |t]; cbn [enc_step] in H.
  - unfold write_key in H. destruct (to_sized_value (EStr k)) as [s|].
    + apply Ret_inj in H. replace e' with (fst (push_key e (DKInline s))) by (rewrite H; reflexivity).
      rewrite push_key_out. exact He.
    + assert (Hp : forall e0, lenZ (en_out e0) mod 2 = 0 -> write_key_pointer c e0 k = Ret (e', r) -> lenZ (en_out e') mod 2 = 0).
      { intros e0 He0 H0. unfold write_key_pointer in H0.
        destruct (enc_write c e0 _ _ _) as [[e1 o1]| | |] eqn:E; try discriminate. cbn [bind] in H0.
        apply enc_write_grown in E as [(_ & _ & _ & _ & G) _]. apply Ret_inj in H0.
        replace e' with (fst (push_key e1 (DKPointer k o1))) by (rewrite H0; reflexivity).
        rewrite push_key_out. auto. }
      unfold write_key_long in H. destruct (en_sk e) as [t|]; [|eauto].
      destruct (en_stack e) as [|[vs|vs nk] st]; try (injection H as <- <-; exact He).
      destruct (encode_and_insert (c_ua c) t k) as [t' [i|]]; [|eapply Hp; [|exact H]; exact He].
      apply Ret_inj in H. replace e' with (fst (push_key (set_sk e (Some t')) (DKShared i))) by (rewrite H; reflexivity).
      rewrite push_key_out. exact He.
  - unfold write_value in H. destruct (en_stack e) as [|cc st] eqn:Est; [injection H as <- <-; exact He|].
    destruct (to_sized_value v) as [s|].
    + apply Ret_inj in H. replace e' with (fst (push_value e s)) by (rewrite H; reflexivity).
      rewrite push_value_out. exact He.
    + destruct (enc_write c e v false false) as [[e1 o1]| | |] eqn:E; try discriminate. cbn [bind] in H.
      apply enc_write_grown in E as [(_ & _ & _ & _ & G) _].
      destruct (new_pointer o1) as [p|]; apply Ret_inj in H.
      * replace e' with (fst (push_value e1 p)) by (rewrite H; reflexivity). rewrite push_value_out. auto.
      * injection H as <- <-. auto.
  - unfold begin_array in H. destruct (en_closed e), (top_waits_for_key (en_stack e)), (two63 <=? n * 4);
      try discriminate; injection H as <- <-; exact He.
  - unfold end_array in H. destruct (stack_pop (en_stack e)) as [[[vs|vs nk]|] st];
      try (injection H as <- <-; exact He).
    cbn [set_stack en_out] in H.
    destruct (array_should_be_wide _ _ _) as [w| | |]; try discriminate. cbn [bind] in H.
    destruct (enc_write c _ _ _ _) as [[e1 o1]| | |] eqn:E; try discriminate. cbn [bind] in H.
    destruct (fix_array_pointers _ _ _ _) as [vs'| | |]; try discriminate. cbn [bind] in H.
    destruct (write_slots c e1 w vs') as [e2| | |] eqn:E2; try discriminate. cbn [bind] in H.
    apply enc_write_grown in E as [G _]. apply write_slots_grown in E2 as G2.
    eapply finished_even; [exact H|]. apply (grown_trans _ _ _ G G2). exact He.
  - unfold begin_dict in H. destruct (en_closed e), (top_waits_for_key (en_stack e));
      try discriminate; injection H as <- <-; exact He.
  - unfold end_dict in H. destruct (en_stack e) as [|[vs|vs [nk|]] st]; try (injection H as <- <-; exact He).
    cbn [set_stack en_out] in H.
    destruct (dict_should_be_wide _ _ _ _) as [w| | |]; try discriminate. cbn [bind] in H.
    destruct (enc_write c _ _ _ _) as [[e1 o1]| | |] eqn:E; try discriminate. cbn [bind] in H.
    destruct (fix_dict_pointers _ _ _ _) as [vs'| | |]; try discriminate. cbn [bind] in H.
    destruct (write_entries c e1 w vs') as [[e2 r2]| | |] eqn:E2; try discriminate. unfold eseq in H; cbn [bind fst snd] in H.
    apply enc_write_grown in E as [G _]. apply write_entries_grown in E2 as G2.
    pose proof (grown_trans _ _ _ G G2) as (_ & _ & _ & _ & G3). cbn [set_stack en_out] in G3.
    destruct r2; [|injection H as <- <-; apply G3; exact He].
    eapply finished_even; [exact H|]. apply G3. exact He.
  - injection H as <- <-. exact He.
Qed.

Lemma run_even c : forall ops e e' rs, enc_run c e ops = Ret (e', rs) -> out_even e -> out_even e'.
Proof.
  induction ops as [|o ops IH]; intros e e' rs H He; cbn [enc_run] in H.
  - injection H as <- <-. exact He.
  - destruct (enc_step c e o) as [[e1 r1]| | |] eqn:E; try discriminate. cbn [bind fst] in H.
    destruct (enc_run c e1 ops) as [[e2 r2]| | |] eqn:E2; try discriminate. cbn [bind fst snd] in H.
    injection H as <- <-. eapply IH; [exact E2|]. eapply step_even; eauto.
Qed.
Lemma enc_end_even c : forall f e e', enc_end f c e = Ret e' -> out_even e -> out_even e'.
Proof.
  induction f as [|f IH]; intros e e' H He; cbn [enc_end] in H; [discriminate|].
  destruct (en_stack e) as [|[vs|vs nk] st] eqn:Est.
  - injection H as <-. exact He.
  - destruct (end_array c e) as [[e1 r1]| | |] eqn:E; try discriminate. cbn [bind fst] in H.
    eapply IH; [exact H|]. apply (step_even c e OpEndArray e1 r1); auto.
  - destruct (end_dict c _) as [[e1 r1]| | |] eqn:E; try discriminate. cbn [bind fst] in H.
    eapply IH; [exact H|]. eapply (step_even c _ OpEndDict e1 r1); [exact E|exact He].
Qed.
Lemma run_finish_even c prefix ops e' rs bs :
  lenZ prefix mod 2 = 0 -> enc_run c (enc_new_to_vec prefix) ops = Ret (e', rs) ->
  finish c e' = Ret bs -> lenZ bs mod 2 = 0.
Proof.
  intros Hp Hr Hf. unfold finish in Hf.
  destruct (enc_end _ c e') as [e2| | |] eqn:E; try discriminate. cbn [bind] in Hf. injection Hf as <-.
  eapply enc_end_even; [exact E|]. eapply run_even; [exact Hr|]. exact Hp.
Qed.

(* ---------- slots that are safe in narrow collections ---------- *)

(** A pointer not below [P], or an inline value without the bit that narrow writing clears. *)
Definition sclean (P : Z) (s : sized) : Prop :=
  if is_ptr s then P <= pointer_offset s else Z.land (nth 0 s 0) 64 = 0.
Definition cclean (P : Z) (c : coll) : Prop :=
  match c with
  | CArr vs => Forall (sclean P) vs
  | CDict vs nk =>
      Forall (sclean P) (dict_slots vs) /\
      match nk with Some k => sclean P (dk_sized k) | None => True end
  end.
Definition clean (P : Z) (e : enc) : Prop :=
  Forall (cclean P) (en_stack e) /\ P <= lenZ (en_out e).

Lemma type_ptr_byte b : is_byte b -> type_of_byte b = TyPointer -> 128 <= b.
Proof.
  intros Hb H. unfold is_byte in Hb.
  assert (E : (vtype_eqb (type_of_byte b) TyPointer && (b <? 128)) = false).
  { destruct (Z_lt_le_dec b 128) as [Hl|]; [|destruct (vtype_eqb _ _); lia].
    assert (E : negb (vtype_eqb (type_of_byte b) TyPointer && (b <? 128)) = true).
    { apply (range_sweep (fun b => negb (vtype_eqb (type_of_byte b) TyPointer && (b <? 128))) 128); [vm_compute; reflexivity|lia]. }
    destruct (vtype_eqb (type_of_byte b) TyPointer && (b <? 128)); [discriminate|reflexivity]. }
  rewrite H in E. cbn [vtype_eqb andb] in E. lia.
Qed.

Lemma short_clean P z b0 b1 : [b0; b1] = short_bytes z -> sclean P [b0; b1; 0; 0].
Proof.
  unfold short_bytes. intros H. injection H as -> _. unfold sclean.
  assert (Hb : 0 <= (wrap_u16 z / 256) mod 16 < 16) by lia. cbn [nth].
  assert (E : is_ptr [(wrap_u16 z / 256) mod 16; b1; 0; 0] = false).
  { apply scalar_not_ptr. rewrite type_short by lia. reflexivity. }
  rewrite E. assert (E2 : (Z.land ((wrap_u16 z / 256) mod 16) 64 =? 0) = true); [|lia].
  apply (range_sweep (fun b => Z.land b 64 =? 0) 16); [reflexivity|lia].
Qed.

Lemma i16_clean P z s : i16_to_sized z = Some s -> sclean P s.
Proof.
  intros E. assert (Hz : -2048 <= z <= 2047).
  { unfold i16_to_sized in E. destruct ((2047 <? z) || (z <? -2048)) eqn:E1; [discriminate|lia]. }
  destruct (i16_sized z Hz) as (b0 & b1 & E1 & E2). rewrite E in E1. injection E1 as ->. eapply short_clean; eauto.
Qed.
Lemma u16_clean P z s : 0 <= z -> u16_to_sized z = Some s -> sclean P s.
Proof.
  intros H0 E. assert (Hz : 0 <= z <= 2047).
  { unfold u16_to_sized in E. destruct (2047 <? z) eqn:E1; [discriminate|lia]. }
  destruct (u16_sized z Hz) as (b0 & b1 & E1 & E2). rewrite E in E1. injection E1 as ->. eapply short_clean; eauto.
Qed.
Lemma bytes_sized_long tag s x : 2 <= lenZ s -> bytes_to_sized tag s = Some x -> False.
Proof. destruct s as [|a [|b s]]; cbn; intros; [lia|lia|discriminate]. Qed.

Lemma sized_clean P v s : wf_enc v -> no_short_text v = true ->
  to_sized_value v = Some s -> sclean P s.
Proof.
  induction v as [t z|b|b|b| | |s0|s0| |w IH|s0|d n]; cbn [wf_enc no_short_text to_sized_value];
    intros Hw Ht H; try discriminate; try contradiction; auto.
  - assert (0 <= wrap_u16 z) by (unfold wrap_u16, two16; lia).
    destruct t; cbn [ity_min ity_max] in *;
      repeat match type of H with context [if ?b then _ else _] => destruct b eqn:? end; try discriminate;
      try (eapply i16_clean; exact H); (eapply u16_clean; [|exact H]; lia).
  - destruct b; injection H as <-; vm_compute; reflexivity.
  - injection H as <-; vm_compute; reflexivity.
  - injection H as <-; vm_compute; reflexivity.
  - exfalso. eapply bytes_sized_long; [|exact H]. lia.
  - exfalso. eapply bytes_sized_long; [|exact H]. lia.
  - injection H as <-; vm_compute; reflexivity.
Qed.

Lemma ptr_clean P off s : P <= off -> 0 <= off <= MAX_WIDE -> new_pointer off = Some s -> sclean P s.
Proof.
  intros HP Ho H. rewrite new_pointer_ok in H by exact Ho. injection H as <-. unfold sclean.
  rewrite is_ptr_mkptr, pointer_offset_mkptr by exact Ho. exact HP.
Qed.
Lemma dict_slots_app vs ws : dict_slots (vs ++ ws) = dict_slots vs ++ dict_slots ws.
Proof. induction vs as [|d vs IH]; [reflexivity|]. cbn [app dict_slots]. rewrite IH. reflexivity. Qed.

Lemma push_value_clean P e s e' r : push_value e s = (e', r) -> clean P e -> sclean P s -> clean P e'.
Proof.
  unfold push_value, clean. intros H [Hc HP] Hs. destruct (en_stack e) as [|[vs|vs [k|]] st] eqn:E;
    injection H as <- <-; cbn [set_stack en_stack en_out]; rewrite ?E; (split; [|exact HP]); auto;
    inversion Hc as [|? ? H1 H2]; subst; constructor; auto.
  - apply Forall_app; auto.
  - cbn [cclean] in *. destruct H1 as [H1 Hk]. split; [|exact I]. rewrite dict_slots_app.
    apply Forall_app. split; [exact H1|]. cbn [dict_slots de_key de_val]. auto.
Qed.
Lemma push_key_clean P e k e' r : push_key e k = (e', r) -> clean P e -> sclean P (dk_sized k) -> clean P e'.
Proof.
  unfold push_key, clean. intros H [Hc HP] Hs. destruct (en_stack e) as [|[vs|vs [k2|]] st] eqn:E;
    injection H as <- <-; cbn [set_stack en_stack en_out]; rewrite ?E; (split; [|exact HP]); auto.
  inversion Hc as [|? ? H1 H2]; subst; constructor; auto. cbn [cclean] in *. destruct H1 as [H1 _]. auto.
Qed.
Lemma grown_clean P e e' : grown e e' -> clean P e -> clean P e'.
Proof. intros G [H1 H2]. pose proof (grown_len _ _ G). destruct G as (E & _). unfold clean. rewrite E. split; [exact H1|lia]. Qed.

Lemma finished_clean P c e p e' r :
  finished_collection c e p = Ret (e', r) -> clean P e -> P <= p -> 0 <= p <= MAX_WIDE -> clean P e'.
Proof.
  unfold finished_collection. intros H Hc HP Hp. destruct (en_stack e) as [|top st] eqn:Est.
  - assert (Hg : forall e1, grown e e1 -> clean P (set_closed e1 true)).
    { intros e1 G. apply (grown_clean P) in G; auto. }
    destruct (u32_sub _ _ _) as [off| | |]; try discriminate. cbn [bind] in H.
    destruct (off <=? MAX_NARROW).
    + destruct (new_pointer off); [|discriminate].
      destruct (enc_write c e _ _ _) as [[e1 o1]| | |] eqn:E; try discriminate. cbn [bind fst] in H.
      injection H as <- <-. apply enc_write_grown in E as [G _]. auto.
    + destruct (new_pointer off); [|injection H as <- <-; exact Hc].
      destruct (enc_write c e _ _ _) as [[e1 o1]| | |] eqn:E; try discriminate. cbn [bind fst] in H.
      destruct (new_pointer 4); [|discriminate].
      destruct (enc_write c e1 _ _ _) as [[e2 o2]| | |] eqn:E2; try discriminate. cbn [bind fst] in H.
      injection H as <- <-. apply enc_write_grown in E as [G _]. apply enc_write_grown in E2 as [G2 _].
      apply Hg. eapply grown_trans; eauto.
  - destruct (new_pointer p) as [s|] eqn:En; [|injection H as <- <-; exact Hc].
    apply (ptr_clean P) in En; auto.
    assert (Hpv : forall r2, push_value e s = (e', r2) -> clean P e') by (intros; eapply push_value_clean; eauto).
    unfold push_value in Hpv. rewrite Est in Hpv.
    destruct top as [vs|vs [k|]]; injection H as <- <-; try (eapply Hpv; reflexivity); exact Hc.
Qed.

Lemma wrap_u32_len e : lenZ (en_out e) <= MAX_WIDE -> wrap_u32 (lenZ (en_out e)) = lenZ (en_out e).
Proof. intros H. pose proof (lenZ_nonneg (en_out e)). apply wrap_u32_id. unfold two32, MAX_WIDE in *. lia. Qed.

Definition op_args_wf (o : op) : Prop :=
  match o with
  | OpKey k => wf_enc (EStr k)
  | OpValue v => wf_enc v
  | _ => True
  end.

Lemma step_clean P c e o e' r :
  enc_step c e o = Ret (e', r) -> op_args_wf o -> plain_op o = true -> 0 <= P ->
  clean P e -> lenZ (en_out e) <= MAX_WIDE -> clean P e'.
Proof.
  intros H Hw Hpl HP Hc Hmx. pose proof (wrap_u32_len e Hmx) as Hwr. destruct Hc as [Hst Hlen] eqn:Ec. clear Ec.
  pose proof (lenZ_nonneg (en_out e)) as H0.
  destruct o as [k|v|n| | | |t]; cbn [enc_step op_args_wf plain_op] in *.
  - unfold write_key in H. destruct (to_sized_value (EStr k)) as [s|] eqn:Es.
    { exfalso. eapply bytes_sized_long; [|exact Es]. lia. }
    assert (Hp : forall e0, en_out e0 = en_out e -> clean P e0 -> write_key_pointer c e0 k = Ret (e', r) -> clean P e').
    { intros e0 Eo Hc0 H1. unfold write_key_pointer in H1.
      destruct (enc_write c e0 _ _ _) as [[e1 o1]| | |] eqn:E; try discriminate. cbn [bind] in H1.
      apply enc_write_grown in E as [G ->]. apply Ret_inj in H1.
      eapply push_key_clean; [exact H1|eapply grown_clean; eauto|]. cbn [dk_sized]. rewrite Eo, Hwr.
      unfold sclean. rewrite is_ptr_mkptr, pointer_offset_mkptr by lia. exact Hlen. }
    unfold write_key_long in H. destruct (en_sk e) as [t|]; [|eapply Hp; [reflexivity|split; auto|exact H]].
    destruct (en_stack e) as [|[vs|vs nk] st] eqn:Est; try (injection H as <- <-; split; [rewrite Est|]; auto).
    destruct (encode_and_insert (c_ua c) t k) as [t' [i|]] eqn:Ei.
    + apply Ret_inj in H. eapply push_key_clean; [exact H|split; cbn [set_sk en_stack en_out]; [rewrite Est|]; auto|].
      assert (Hi : 0 <= i <= 2047).
      { clear - Ei. unfold encode_and_insert, can_add, sk_len, MAX_KEYS in Ei.
        destruct (lenZ t <? 2048) eqn:E1; cbn [andb negb] in Ei; [|discriminate].
        destruct (negb _); [discriminate|]. pose proof (lenZ_nonneg t).
        destruct (sk_find (zstr_make k) 0 t) as [j|] eqn:Ef; injection Ei as <- <-; [|lia].
        apply sk_find_bounds in Ef as [Hb _]. lia. }
      cbn [dk_sized]. eapply u16_clean; [apply Hi|apply (dk_shared_swf 0 i Hi)].
    + apply (Hp (set_sk e (Some t'))); [reflexivity| |exact H]. split; cbn [set_sk en_stack en_out]; [rewrite Est|]; auto.
  - unfold write_value in H. destruct (en_stack e) as [|cc st] eqn:Est; [injection H as <- <-; split; [rewrite Est|]; auto|].
    rewrite <- Est in *. destruct (to_sized_value v) as [s|] eqn:Es.
    + apply Ret_inj in H. eapply push_value_clean; [exact H|split; auto|]. eapply sized_clean; eauto.
    + destruct (enc_write c e v false false) as [[e1 o1]| | |] eqn:E; try discriminate. cbn [bind] in H.
      apply enc_write_grown in E as [G ->]. rewrite Hwr in H.
      destruct (new_pointer (lenZ (en_out e))) as [p|] eqn:En; apply Ret_inj in H.
      * eapply push_value_clean; [exact H|eapply grown_clean; [exact G|split; auto]|]. eapply ptr_clean; [| |exact En]; lia.
      * injection H as <- <-. eapply grown_clean; [exact G|split; auto].
  - unfold begin_array in H. destruct (en_closed e), (top_waits_for_key (en_stack e)), (two63 <=? n * 4);
      try discriminate; injection H as <- <-; split; auto. constructor; [constructor|exact Hst].
  - unfold end_array in H.
    assert (Hpop : Forall (cclean P) (snd (stack_pop (en_stack e)))).
    { destruct (en_stack e) as [|[vs|vs [nk|]] st]; cbn [stack_pop snd]; auto; inversion Hst; auto. }
    destruct (stack_pop (en_stack e)) as [[[vs|vs nk]|] st]; cbn [snd] in Hpop;
      try (injection H as <- <-; split; [exact Hpop|exact Hlen]).
    cbn [set_stack en_out] in H.
    destruct (array_should_be_wide _ _ _) as [w| | |]; try discriminate. cbn [bind] in H.
    destruct (enc_write c _ _ _ _) as [[e1 o1]| | |] eqn:E; try discriminate. cbn [bind] in H.
    destruct (fix_array_pointers _ _ _ _) as [vs'| | |]; try discriminate. cbn [bind] in H.
    destruct (write_slots c e1 w vs') as [e2| | |] eqn:E2; try discriminate. cbn [bind] in H.
    apply enc_write_grown in E as [G ->]. apply write_slots_grown in E2 as G2.
    cbn [set_stack en_out] in H. rewrite Hwr in H.
    eapply finished_clean; [exact H| |exact Hlen|lia]. eapply grown_clean; [exact (grown_trans _ _ _ G G2)|].
    split; [exact Hpop|exact Hlen].
  - unfold begin_dict in H. destruct (en_closed e), (top_waits_for_key (en_stack e));
      try discriminate; injection H as <- <-; split; auto. constructor; [|exact Hst].
    split; [constructor|exact I].
  - unfold end_dict in H.
    destruct (en_stack e) as [|[vs|vs [nk|]] st] eqn:Est; try (injection H as <- <-; split; [rewrite Est|]; auto; fail).
    inversion Hst as [|? ? _ Hpop]; subst. cbn [set_stack en_out] in H.
    destruct (dict_should_be_wide _ _ _ _) as [w| | |]; try discriminate. cbn [bind] in H.
    destruct (enc_write c _ _ _ _) as [[e1 o1]| | |] eqn:E; try discriminate. cbn [bind] in H.
    destruct (fix_dict_pointers _ _ _ _) as [vs'| | |]; try discriminate. cbn [bind] in H.
    destruct (write_entries c e1 w vs') as [[e2 r2]| | |] eqn:E2; try discriminate. unfold eseq in H; cbn [bind fst snd] in H.
    apply enc_write_grown in E as [G ->]. apply write_entries_grown in E2 as G2.
    assert (Hc2 : clean P e2) by (eapply grown_clean; [exact (grown_trans _ _ _ G G2)|]; split; [exact Hpop|exact Hlen]).
    destruct r2; [|injection H as <- <-; exact Hc2].
    cbn [set_stack en_out] in H. rewrite Hwr in H. eapply finished_clean; [exact H|exact Hc2|exact Hlen|lia].
  - injection H as <- <-. split; auto.
Qed.

(* ---------- a clean state fits ---------- *)

Lemma arr_fits_clean P w : forall vs q, Forall (sclean P) vs ->
  q + lenZ vs * 4 - P <= MAX_NARROW -> arr_fits w q vs = true.
Proof.
  induction vs as [|s vs IH]; intros q Hc Hq; [reflexivity|]. inversion Hc as [|? ? H1 H2]; subst.
  rewrite lenZ_cons in Hq. pose proof (lenZ_nonneg vs). cbn [arr_fits]. apply andb_true_intro. split.
  - unfold slot_fits, sclean in *. destruct w; [reflexivity|]. cbn [orb]. destruct (is_ptr s); lia.
  - apply IH; [exact H2|]. destruct w; cbn [width_of]; lia.
Qed.

Lemma Permutation_dict_slots P vs ws : Permutation vs ws ->
  Forall (sclean P) (dict_slots vs) -> Forall (sclean P) (dict_slots ws).
Proof.
  induction 1; cbn [dict_slots]; intros HF; auto.
  - inversion HF as [|? ? A1 A2]; subst. inversion A2; subst. auto.
  - inversion HF as [|? ? A1 A2]; subst. inversion A2 as [|? ? A3 A4]; subst.
    inversion A4 as [|? ? A5 A6]; subst. inversion A6; subst. auto.
Qed.

Lemma clean_fits P c e b :
  sort_ok (c_sort c) -> inv e b -> clean P e -> pot e - P <= MAX_NARROW -> pot e <= MAX_WIDE ->
  top_fits c e = true.
Proof.
  intros Hso [Hev Hst Hpd Hrt] [Hc HP] Hn Hmx. unfold top_fits. unfold pot in *.
  destruct Hst as [|cc f st fr Hcr Hst]; [reflexivity|]. inversion Hc as [|? ? Hcc _]; subst.
  pose proof (stack_pot_nonneg st). pose proof (lenZ_nonneg (en_out e)). cbn [stack_pot coll_slots] in *.
  destruct Hcr as [vs ts Hvs|vs kts Hvs|vs kts dk kk k Hvs Hk]; cbn [coll_slots cclean] in *;
    pose proof (lenZ_nonneg vs); pose proof (hdr_size_le (lenZ vs) ltac:(lia) ltac:(lia)).
  - destruct (Forall2_swf _ _ _ _ Hvs) as [Hswf _].
    destruct (array_wide_total (c_dbg c) (lenZ (en_out e)) vs) as [w Hw]; [unfold two32, MAX_WIDE in *; lia|exact Hswf|].
    rewrite Hw. eapply arr_fits_clean; [exact Hcc|]. lia.
  - assert (Hg : Forall (fun d => kgood (lenZ (en_out e)) (de_key d) /\ swf (lenZ (en_out e)) (de_val d)) vs).
    { clear - Hvs. induction Hvs as [|d kt l m [[kk Hk] Hs] H IH]; [constructor|].
      constructor; [|exact IH]. split; [eapply krep_kgood; eauto|]. apply srep_swf in Hs as [Hs _]. exact Hs. }
    destruct (dict_wide_total (c_dbg c) (lenZ (en_out e)) ltac:(unfold two32, MAX_WIDE in *; lia) vs (lenZ (en_out e)) ltac:(lia) Hg) as [w Hw].
    rewrite Hw. destruct (Hso vs) as [Hperm _].
    eapply arr_fits_clean; [eapply Permutation_dict_slots; [exact Hperm|apply Hcc]|].
    rewrite dict_slots_len, <- (Permutation_lenZ _ _ Hperm). lia.
  - assert (Hg : Forall (fun d => kgood (lenZ (en_out e)) (de_key d) /\ swf (lenZ (en_out e)) (de_val d)) vs).
    { clear - Hvs. induction Hvs as [|d kt l m [[kk Hk] Hs] H IH]; [constructor|].
      constructor; [|exact IH]. split; [eapply krep_kgood; eauto|]. apply srep_swf in Hs as [Hs _]. exact Hs. }
    destruct (dict_wide_total (c_dbg c) (lenZ (en_out e)) ltac:(unfold two32, MAX_WIDE in *; lia) vs (lenZ (en_out e)) ltac:(lia) Hg) as [w Hw].
    rewrite Hw. destruct (Hso vs) as [Hperm _].
    eapply arr_fits_clean; [eapply Permutation_dict_slots; [exact Hperm|apply Hcc]|].
    rewrite dict_slots_len, <- (Permutation_lenZ _ _ Hperm). lia.
Qed.

(* ---------- the output only grows; the key table does not disappear ---------- *)

Definition ext (e e' : enc) : Prop :=
  (exists X, en_out e' = en_out e ++ X) /\ en_sk e' = en_sk e.
Lemma ext_refl e : ext e e.
Proof. split; [exists []; rewrite app_nil_r; reflexivity|reflexivity]. Qed.
Lemma ext_trans a b c : ext a b -> ext b c -> ext a c.
Proof.
  intros [[X HX] H1] [[Y HY] H2]. split; [|congruence]. exists (X ++ Y). rewrite HY, HX, app_assoc. reflexivity.
Qed.
Ltac ext_same := split; [exists []; rewrite app_nil_r; reflexivity|reflexivity].
Lemma grown_ext a b : grown a b -> ext a b.
Proof. intros (_ & H & _ & HX & _). split; [exact HX|exact H]. Qed.
Lemma push_key_ext e k : ext e (fst (push_key e k)).
Proof. unfold push_key. destruct (en_stack e) as [|[vs|vs [k2|]] st]; ext_same. Qed.
Lemma push_value_ext e s : ext e (fst (push_value e s)).
Proof. unfold push_value. destruct (en_stack e) as [|[vs|vs [k2|]] st]; ext_same. Qed.

Lemma finished_ext c e p e' r : finished_collection c e p = Ret (e', r) -> ext e e'.
Proof.
  unfold finished_collection. intros H. destruct (en_stack e) as [|top st].
  - destruct (u32_sub _ _ _) as [off| | |]; try discriminate. cbn [bind] in H.
    destruct (off <=? MAX_NARROW).
    + destruct (new_pointer off); [|discriminate].
      destruct (enc_write c e _ _ _) as [[e1 o1]| | |] eqn:E; try discriminate. cbn [bind fst] in H.
      injection H as <- <-. apply enc_write_grown in E as [G _]. apply grown_ext in G. exact G.
    + destruct (new_pointer off); [|injection H as <- <-; ext_same].
      destruct (enc_write c e _ _ _) as [[e1 o1]| | |] eqn:E; try discriminate. cbn [bind fst] in H.
      destruct (new_pointer 4); [|discriminate].
      destruct (enc_write c e1 _ _ _) as [[e2 o2]| | |] eqn:E2; try discriminate. cbn [bind fst] in H.
      injection H as <- <-. apply enc_write_grown in E as [G _]. apply enc_write_grown in E2 as [G2 _].
      apply (grown_ext _ _ (grown_trans _ _ _ G G2)).
  - destruct (new_pointer p); [|injection H as <- <-; ext_same].
    destruct top as [vs|vs [k|]]; injection H as <- <-; ext_same.
Qed.

Lemma step_ext c e o e' r : enc_step c e o = Ret (e', r) ->
  (exists X, en_out e' = en_out e ++ X) /\
  (en_sk e' = None <-> en_sk e = None /\ forall t, o <> OpSetSharedKeys t) /\
  ((forall k, o <> OpKey k) -> (forall t, o <> OpSetSharedKeys t) -> en_sk e' = en_sk e).
Proof.
  intros H.
  assert (Hgo : ext e e' -> (forall t, o <> OpSetSharedKeys t) ->
    (exists X, en_out e' = en_out e ++ X) /\ (en_sk e' = None <-> en_sk e = None /\ forall t, o <> OpSetSharedKeys t) /\
    ((forall k, o <> OpKey k) -> (forall t, o <> OpSetSharedKeys t) -> en_sk e' = en_sk e))
    by (intros [HX HE] Hn; rewrite HE; tauto).
  destruct o as [k|v|n| | | |t]; cbn [enc_step] in H; [|apply Hgo; [|intros; discriminate]..|].
  - assert (Hgo2 : ext e e' -> (exists X, en_out e' = en_out e ++ X) /\ (en_sk e' = None <-> en_sk e = None))
      by (intros [HX HE]; rewrite HE; tauto).
    assert (Hgo3 : (exists X, en_out e' = en_out e ++ X) /\ (en_sk e' = None <-> en_sk e = None));
      [|split; [tauto|]; split; [|intros Hk; exfalso; apply (Hk k); reflexivity];
        rewrite (proj2 Hgo3); split; [intros ?; split; [assumption|intros; discriminate]|tauto]].
    clear Hgo. unfold write_key in H. destruct (to_sized_value (EStr k)) as [s|].
    + apply Hgo2. apply Ret_inj in H. replace e' with (fst (push_key e (DKInline s))) by (rewrite H; reflexivity).
      apply push_key_ext.
    + assert (Hp : forall e0, write_key_pointer c e0 k = Ret (e', r) -> ext e0 e').
      { intros e0 H0. unfold write_key_pointer in H0.
        destruct (enc_write c e0 _ _ _) as [[e1 o1]| | |] eqn:E; try discriminate. cbn [bind] in H0.
        apply enc_write_grown in E as [G _]. apply Ret_inj in H0.
        replace e' with (fst (push_key e1 (DKPointer k o1))) by (rewrite H0; reflexivity).
        eapply ext_trans; [apply grown_ext; exact G|apply push_key_ext]. }
      unfold write_key_long in H. destruct (en_sk e) as [t|] eqn:Esk.
      2:{ rewrite <- Esk in Hgo2 |- *. apply Hgo2. eauto. }
      destruct (en_stack e) as [|[vs|vs nk] st];
        try (injection H as <- <-; split; [exists []; rewrite app_nil_r; reflexivity|rewrite Esk; tauto]).
      assert (Hs : forall t', ext (set_sk e (Some t')) e' -> (exists X, en_out e' = en_out e ++ X) /\ (en_sk e' = None <-> @Some shared_keys t = None)).
      { intros t' [HX HE]. cbn [set_sk en_out en_sk] in *. rewrite HE. split; [exact HX|]. split; discriminate. }
      destruct (encode_and_insert (c_ua c) t k) as [t' [i|]]; apply (Hs t'); [|eauto].
      apply Ret_inj in H. replace e' with (fst (push_key (set_sk e (Some t')) (DKShared i))) by (rewrite H; reflexivity).
      apply push_key_ext.
  - unfold write_value in H. destruct (en_stack e) as [|cc st] eqn:Est; [injection H as <- <-; ext_same|].
    destruct (to_sized_value v) as [s|].
    + apply Ret_inj in H. replace e' with (fst (push_value e s)) by (rewrite H; reflexivity). apply push_value_ext.
    + destruct (enc_write c e v false false) as [[e1 o1]| | |] eqn:E; try discriminate. cbn [bind] in H.
      apply enc_write_grown in E as [G _]. apply grown_ext in G.
      destruct (new_pointer o1) as [p|]; apply Ret_inj in H.
      * replace e' with (fst (push_value e1 p)) by (rewrite H; reflexivity). eapply ext_trans; [exact G|apply push_value_ext].
      * injection H as <- <-. exact G.
  - unfold begin_array in H. destruct (en_closed e), (top_waits_for_key (en_stack e)), (two63 <=? n * 4);
      try discriminate; injection H as <- <-; ext_same.
  - unfold end_array in H. destruct (stack_pop (en_stack e)) as [[[vs|vs nk]|] st];
      try (injection H as <- <-; ext_same).
    cbn [set_stack en_out] in H.
    destruct (array_should_be_wide _ _ _) as [w| | |]; try discriminate. cbn [bind] in H.
    destruct (enc_write c _ _ _ _) as [[e1 o1]| | |] eqn:E; try discriminate. cbn [bind] in H.
    destruct (fix_array_pointers _ _ _ _) as [vs'| | |]; try discriminate. cbn [bind] in H.
    destruct (write_slots c e1 w vs') as [e2| | |] eqn:E2; try discriminate. cbn [bind] in H.
    apply enc_write_grown in E as [G _]. apply write_slots_grown in E2 as G2.
    apply finished_ext in H. eapply ext_trans; [|exact H]. apply (grown_ext _ _ (grown_trans _ _ _ G G2)).
  - unfold begin_dict in H. destruct (en_closed e), (top_waits_for_key (en_stack e));
      try discriminate; injection H as <- <-; ext_same.
  - unfold end_dict in H. destruct (en_stack e) as [|[vs|vs [nk|]] st]; try (injection H as <- <-; ext_same).
    cbn [set_stack en_out] in H.
    destruct (dict_should_be_wide _ _ _ _) as [w| | |]; try discriminate. cbn [bind] in H.
    destruct (enc_write c _ _ _ _) as [[e1 o1]| | |] eqn:E; try discriminate. cbn [bind] in H.
    destruct (fix_dict_pointers _ _ _ _) as [vs'| | |]; try discriminate. cbn [bind] in H.
    destruct (write_entries c e1 w vs') as [[e2 r2]| | |] eqn:E2; try discriminate. unfold eseq in H; cbn [bind fst snd] in H.
    apply enc_write_grown in E as [G _]. apply write_entries_grown in E2 as G2.
    pose proof (grown_ext _ _ (grown_trans _ _ _ G G2)) as G3.
    destruct r2; [|injection H as <- <-; exact G3].
    apply finished_ext in H. eapply ext_trans; [exact G3|exact H].
  - injection H as <- <-. cbn [set_shared_keys set_sk en_out en_sk]. split; [exists []; rewrite app_nil_r; reflexivity|].
    split; [|intros _ Hx; exfalso; apply (Hx t); reflexivity].
    split; [discriminate|]. intros [_ Hn]. exfalso. apply (Hn t). reflexivity.
Qed.
Lemma run_ext c : forall ops e e' rs, enc_run c e ops = Ret (e', rs) -> exists X, en_out e' = en_out e ++ X.
Proof.
  induction ops as [|o ops IH]; intros e e' rs H; cbn [enc_run] in H.
  - injection H as <- <-. exists []. rewrite app_nil_r. reflexivity.
  - destruct (enc_step c e o) as [[e1 r1]| | |] eqn:E; try discriminate. cbn [bind fst] in H.
    destruct (enc_run c e1 ops) as [[e2 r2]| | |] eqn:E2; try discriminate. cbn [bind fst snd] in H.
    injection H as <- <-. apply step_ext in E as [[X HX] _]. apply IH in E2 as [Y HY].
    exists (X ++ Y). rewrite HY, HX, app_assoc. reflexivity.
Qed.
Lemma enc_end_ext c : forall f e e', enc_end f c e = Ret e' -> ext e e'.
Proof.
  induction f as [|f IH]; intros e e' H; cbn [enc_end] in H; [discriminate|].
  destruct (en_stack e) as [|[vs|vs nk] st] eqn:Est.
  - injection H as <-. apply ext_refl.
  - destruct (end_array c e) as [[e1 r1]| | |] eqn:E; try discriminate. cbn [bind fst] in H.
    apply (step_ext c e OpEndArray) in E as (HX & _ & HS). apply IH in H.
    eapply ext_trans; [|exact H]. split; [exact HX|]. apply HS; discriminate.
  - destruct (end_dict c _) as [[e1 r1]| | |] eqn:E; try discriminate. cbn [bind fst] in H.
    apply (step_ext c _ OpEndDict) in E as (HX & _ & HS). apply IH in H.
    eapply ext_trans; [|exact H]. split; [exact HX|]. apply HS; discriminate.
Qed.

(* ---------- documents whose encoding cannot be damaged ---------- *)

Definition b_wf (b : bstate) : Prop := b_root b <> None -> b_stack b = [].
Lemma b_step_wf b o b' : b_wf b -> b_step b o = Ok b' -> b_wf b'.
Proof.
  unfold b_wf. intros Hw E. destruct o; cbn [b_step] in E; unfold b_begin, b_pop in E;
    repeat match type of E with
      | context [match ?x with _ => _ end] => destruct x eqn:?
      end; try discriminate; injection E as <-; cbn [b_stack b_root]; auto;
    intros Hn; try (specialize (Hw Hn); discriminate); try congruence; try (rewrite Hw in * by congruence; discriminate).
Qed.
Lemma accepted_polite : forall ops b, b_wf b -> Forall (eq (Ok tt)) (snd (b_run b ops)) -> polite b ops.
Proof.
  induction ops as [|o ops IH]; intros b Hw H; cbn [polite]; [exact I|]. cbn [b_run] in H.
  destruct (b_step b o) as [b'|er] eqn:E; cbn [snd] in H; inversion H as [|? ? H1 H2]; subst; [|discriminate].
  split; [|apply IH; [eapply b_step_wf; eauto|exact H2]]. destruct o; cbn [polite_op]; auto; cbn [b_step] in E.
  - destruct (b_root b) eqn:Er; [|reflexivity]. rewrite (Hw ltac:(rewrite Er; discriminate)) in E. discriminate.
  - destruct (b_stack b) as [|[l|l [k2|]] fr]; auto; discriminate.
  - unfold b_begin in E. destruct (b_root b); [discriminate|reflexivity].
Qed.

Definition has_sk (e : enc) : bool := match en_sk e with Some _ => true | None => false end.

(** Every key that a run stores as a string satisfies the key condition. *)
Definition strings_ok (c : cfg) (e : enc) (ops : list op) : Prop :=
  forall ops1 k ops2 e1 rs, ops = ops1 ++ OpKey k :: ops2 -> enc_run c e ops1 = Ret (e1, rs) ->
    key_as_string c (en_sk e1) k -> string_key k.
Lemma strings_ok_here c e k ops : strings_ok c e (OpKey k :: ops) -> key_as_string c (en_sk e) k -> string_key k.
Proof. intros H. apply (H [] k ops e []); reflexivity. Qed.
Lemma strings_ok_next c e o ops e' r : strings_ok c e (o :: ops) -> enc_step c e o = Ret (e', r) -> strings_ok c e' ops.
Proof.
  intros H Hs ops1 k ops2 e1 rs E Hr. apply (H (o :: ops1) k ops2 e1 (r :: rs)); [rewrite E; reflexivity|].
  cbn [enc_run]. rewrite Hs; cbn [bind fst snd]. rewrite Hr; cbn [bind fst snd]. reflexivity.
Qed.

Lemma good_calls_ok c P : sort_ok (c_sort c) -> 0 <= P -> forall ops e b,
  inv e b -> clean P e -> Forall good_op ops -> forallb plain_op ops = true -> polite b ops -> keys_ok (has_sk e) ops -> strings_ok c e ops ->
  pot e + ops_size ops <= MAX_WIDE -> pot e + ops_size ops - P <= MAX_NARROW ->
  (forall o, In o ops -> 0 <= op_size o) ->
  calls_ok c e b ops /\ forall e' rs, enc_run c e ops = Ret (e', rs) -> clean P e'.
Proof.
  intros Hs HP. induction ops as [|o ops IH]; intros e b Hi Hc Hg Hpl0 Hp Hk Hso Hw Hn Hpos; cbn [calls_ok enc_run].
  { split; [exact I|]. intros e' rs H. injection H as <- <-. exact Hc. }
  inversion Hg as [|? ? Hg1 Hg2]; subst. cbn [polite] in Hp. destruct Hp as [Hp1 Hp2].
  cbn [forallb] in Hpl0. apply andb_prop in Hpl0 as [Hpl1 Hpl2].
  assert (Hfit : pot e <= MAX_WIDE -> pot e - P <= MAX_NARROW -> top_fits c e = true).
  { intros. eapply clean_fits; eauto. }
  assert (Hrest : 0 <= ops_size ops).
  { assert (Hz : forall l, (forall o, In o l -> 0 <= op_size o) -> 0 <= ops_size l).
    { clear. induction l as [|x l IHl]; intros Hx; cbn [ops_size fold_right]; [lia|].
      pose proof (Hx x (or_introl eq_refl)). assert (0 <= ops_size l) by (apply IHl; intros; apply Hx; right; assumption).
      unfold ops_size in *. lia. }
    apply Hz. intros; apply Hpos; right; assumption. }
  change (ops_size (o :: ops)) with (op_size o + ops_size ops) in *.
  pose proof (Hpos o (or_introl eq_refl)) as Ho.
  assert (Hcall : call_ok c e b o).
  { destruct o as [k|v|n| | | |t]; cbn [call_ok good_op polite_op keys_ok] in *.
    - destruct Hk as [Hk _]. split; [exact Hg1|]. split; [|split; [exact Hp1|]].
      + intros Hne. apply Hk. unfold has_sk. destruct (en_sk e); congruence.
      + eapply strings_ok_here; eauto.
    - tauto.
    - assumption.
    - destruct (b_stack b) as [|[l|l [k2|]] fr]; auto. apply Hfit; lia.
    - assumption.
    - destruct (b_stack b) as [|[l|l [k2|]] fr]; auto. apply Hfit; lia.
    - unfold has_sk in Hk. destruct (en_sk e); [destruct Hk; discriminate|]. cbn. auto. }
  assert (Hargs : op_args_wf o /\ plain_op o = true).
  { split; [|exact Hpl1]. destruct o; cbn [op_args_wf good_op] in *; tauto. }
  destruct Hargs as [Ha Hpl].
  assert (Hlen : lenZ (en_out e) <= pot e).
  { unfold pot. pose proof (stack_pot_nonneg (en_stack e)). lia. }
  pose proof (step_ok c e b o Hs Hi Hcall ltac:(lia)) as Hst. unfold step_rel in Hst.
  assert (Hnext : forall e' r, enc_step c e o = Ret (e', r) ->
     calls_ok c e' (match b_step b o with Ok b' => b' | Err _ => b end) ops /\
     forall e2 rs, enc_run c e' ops = Ret (e2, rs) -> clean P e2).
  { intros e' r H.
    assert (Hc' : clean P e') by (eapply step_clean; eauto; lia).
    assert (Hso' : strings_ok c e' ops) by (eapply strings_ok_next; eauto).
    assert (Hk' : keys_ok (has_sk e') ops).
    { apply step_ext in H as (_ & Hsk & _). unfold has_sk in *.
      destruct o as [k|v|n| | | |t]; cbn [keys_ok] in Hk;
        try (replace (match en_sk e' with Some _ => true | None => false end)
              with (match en_sk e with Some _ => true | None => false end);
             [tauto|]; destruct (en_sk e), (en_sk e'); try reflexivity; exfalso;
             [assert (Hx : @Some shared_keys s = None) by (apply Hsk; reflexivity); discriminate Hx
             |assert (Hx : @Some shared_keys s = None) by (apply Hsk; split; [reflexivity|intros; discriminate]); discriminate Hx]).
      destruct (en_sk e'); [tauto|]. exfalso. apply (proj2 (proj1 Hsk eq_refl) t). reflexivity. }
    destruct (b_step b o) as [b'|er]; destruct Hst as (e1 & E1 & Hi1 & Hp1'); rewrite H in E1; injection E1 as -> ->;
      (apply IH; auto; try lia; intros; apply Hpos; right; assumption). }
  split.
  - split; [exact Hcall|]. intros e' r H. apply (Hnext e' r H).
  - intros e' rs H. destruct (enc_step c e o) as [[e1 r1]| | |] eqn:E; try discriminate. cbn [bind fst] in H.
    destruct (enc_run c e1 ops) as [[e2 r2]| | |] eqn:E2; try discriminate. cbn [bind fst snd] in H. injection H as <- <-.
    eapply (proj2 (Hnext _ _ eq_refl)); eauto.
Qed.

Lemma good_closes_ok c P : sort_ok (c_sort c) -> 0 <= P -> forall f e b,
  inv e b -> clean P e -> pot e <= MAX_WIDE -> pot e - P <= MAX_NARROW -> closes_ok f c e.
Proof.
  intros Hs HP. induction f as [|f IH]; intros e b Hi Hc Hw Hn; cbn [closes_ok]; [exact I|].
  assert (Hlen : lenZ (en_out e) <= pot e).
  { unfold pot. pose proof (stack_pot_nonneg (en_stack e)). lia. }
  destruct (en_stack e) as [|[vs|vs nk] st] eqn:Est; [exact I| |].
  - assert (Hfit : top_fits c e = true) by (eapply clean_fits; eauto).
    split; [exact Hfit|]. intros e' r H.
    pose proof (i_stack _ _ Hi) as Hst. rewrite Est in Hst. inversion Hst as [|? fx ? fr Hx Hy Hz Eb]; subst.
    destruct fx as [l|l k]; [|inversion Hx].
    assert (Hcall : call_ok c e b OpEndArray) by (cbn [call_ok]; rewrite <- Eb; exact Hfit).
    pose proof (step_ok c e b OpEndArray Hs Hi Hcall ltac:(cbn [op_size]; lia)) as Hr. unfold step_rel in Hr.
    cbn [b_step] in Hr. rewrite <- Eb in Hr. destruct Hr as (e1 & E1 & Hi1 & Hp1). cbn [enc_step] in E1. rewrite H in E1. injection E1 as -> ->. cbn [op_size] in Hp1.
    eapply IH; [exact Hi1| |lia|lia].
    eapply (step_clean P c e OpEndArray); eauto; try exact I; lia.
  - cbv zeta. destruct (drop_pending e b vs nk st Hi Est) as (l & fr & pk & Eb & Hr & Hi0 & Hp0).
    assert (Hc0 : clean P (set_stack e (CDict vs None :: st))).
    { destruct Hc as [Hc1 Hc2]. rewrite Est in Hc1. inversion Hc1 as [|? ? Hca Hcb]; subst. split; [|exact Hc2].
      cbn [set_stack en_stack]. constructor; [|assumption]. cbn [cclean] in *. tauto. }
    assert (Hfit : top_fits c (set_stack e (CDict vs None :: st)) = true) by (eapply clean_fits; eauto; lia).
    split; [exact Hfit|]. intros e' r H.
    assert (Hcall : call_ok c (set_stack e (CDict vs None :: st)) (mk_b (FDict l None :: fr) (b_root b)) OpEndDict) by exact Hfit.
    pose proof (step_ok c _ _ OpEndDict Hs Hi0 Hcall ltac:(cbn [op_size]; lia)) as Hrel. unfold step_rel in Hrel.
    cbn [b_step b_stack] in Hrel. destruct Hrel as (e1 & E1 & Hi1 & Hp1). cbn [enc_step] in E1. rewrite H in E1. injection E1 as -> ->. cbn [op_size] in Hp1.
    eapply IH; [exact Hi1| |lia|lia].
    eapply (step_clean P c _ OpEndDict); eauto; try exact I. cbn [set_stack en_out]. lia.
Qed.

(* ---------- a whole document ---------- *)

(** General form: as long as no collection is damaged when it is written. *)
Theorem document c prefix ops :
  sort_ok (c_sort c) -> lenZ prefix mod 2 = 0 ->
  calls_ok c (enc_new_to_vec prefix) b_init ops ->
  (forall o, In o ops -> 0 <= op_size o) ->
  lenZ prefix + ops_size ops <= MAX_WIDE ->
  exists e', enc_run c (enc_new_to_vec prefix) ops = Ret (e', snd (b_run b_init ops)) /\
    inv e' (fst (b_run b_init ops)) /\
    (closes_ok (S (length (en_stack e'))) c e' ->
     exists D, finish c e' = Ret (prefix ++ D) /\ lenZ D mod 2 = 0 /\ lenZ D <= ops_size ops /\
      forall t, b_finish (fst (b_run b_init ops)) = Some t ->
      exists v t', tsim t t' /\
      forall dbg base sk, 0 <= base -> base + lenZ (prefix ++ D) < two64 ->
        let m := mk_env dbg base (prefix ++ D) sk in
        from_bytes m = Ret (Ok v) /\ from_bytes_unchecked m = Ret v /\
          vstored m (en_sk e') t' v).
Proof.
  intros Hs Hev Hcalls Hpos Hsz. pose proof (inv_init prefix Hev) as Hi.
  assert (Hp0 : pot (enc_new_to_vec prefix) = lenZ prefix) by (unfold pot; cbn [enc_new_to_vec en_out en_stack stack_pot fold_right]; lia).
  destruct (run_ok c Hs ops _ _ Hi Hcalls ltac:(lia) Hpos) as (e' & Erun & Hi' & Hpot).
  exists e'. split; [exact Erun|]. split; [exact Hi'|]. intros Hcl.
  destruct (enc_end_ok c Hs (S (length (en_stack e'))) e' _ ltac:(lia) Hi' Hcl ltac:(lia)) as (e2 & Eend & Hi2 & Hpot2).
  pose proof (run_ext _ _ _ _ _ Erun) as [X HX]. cbn [enc_new_to_vec en_out] in HX.
  pose proof (enc_end_ext _ _ _ _ Eend) as [[Y HY] Hsk].
  assert (Eo : en_out e2 = prefix ++ (X ++ Y)) by (rewrite HY, HX, app_assoc; reflexivity).
  exists (X ++ Y). unfold finish. rewrite Eend. cbn [bind]. rewrite Eo.
  assert (Hle : lenZ (en_out e2) <= lenZ prefix + ops_size ops).
  { assert (lenZ (en_out e2) <= pot e2) by (unfold pot; pose proof (stack_pot_nonneg (en_stack e2)); lia). lia. }
  pose proof (i_even _ _ Hi2) as Hev2. rewrite Eo, lenZ_app in Hle, Hev2.
  split; [reflexivity|]. split; [lia|]. split; [lia|].
  intros t Ht.
  pose proof (i_root _ _ Hi2) as Hrt. cbn [b_root] in Hrt. rewrite Ht in Hrt. destruct Hrt as (_ & _ & Hrt).
  rewrite Eo, Hsk in Hrt. apply rooted_read in Hrt as (v & t' & Hts & Hrd). exists v, t'. split; [exact Hts|].
  intros dbg base sk Hb1 Hb2. apply Hrd; [reflexivity|].
  unfold env_ok; cbn [e_base e_data]. rewrite !lenZ_app in *. unfold MAX_WIDE, two63 in *. lia.
Qed.

Lemma good_op_size o : good_op o -> 0 <= op_size o.
Proof.
  destruct o; cbn [good_op]; try (cbn [op_size]; lia); intros H.
  - apply op_size_nonneg_key.
  - cbn [op_size]. destruct H as (H1 & H2). pose proof (fleece_size_pos _ H1 H2). lia.
Qed.
Lemma good_ops_size ops : Forall good_op ops -> forall o, In o ops -> 0 <= op_size o.
Proof. intros H o Ho. rewrite Forall_forall in H. apply good_op_size. auto. Qed.

(** Documents of at most 16 KiB whose texts and keys have at least two bytes. *)
Theorem small_document c prefix ops :
  sort_ok (c_sort c) -> lenZ prefix mod 2 = 0 ->
  Forall good_op ops -> forallb plain_op ops = true -> keys_ok false ops -> polite b_init ops ->
  strings_ok c (enc_new_to_vec prefix) ops ->
  ops_size ops <= MAX_NARROW -> lenZ prefix + ops_size ops <= MAX_WIDE ->
  exists e' D, enc_run c (enc_new_to_vec prefix) ops = Ret (e', snd (b_run b_init ops)) /\
    finish c e' = Ret (prefix ++ D) /\ lenZ D mod 2 = 0 /\ lenZ D <= ops_size ops /\
      forall t, b_finish (fst (b_run b_init ops)) = Some t ->
      exists v t', tsim t t' /\
      forall dbg base sk, 0 <= base -> base + lenZ (prefix ++ D) < two64 ->
        let m := mk_env dbg base (prefix ++ D) sk in
        from_bytes m = Ret (Ok v) /\ from_bytes_unchecked m = Ret v /\
          vstored m (en_sk e') t' v.
Proof.
  intros Hs Hev Hg Hpl Hk Hp Hso Hn Hw. pose proof (good_ops_size ops Hg) as Hpos.
  pose proof (lenZ_nonneg prefix) as Hl0.
  assert (Hp0 : pot (enc_new_to_vec prefix) = lenZ prefix) by (unfold pot; cbn [enc_new_to_vec en_out en_stack stack_pot fold_right]; lia).
  assert (Hc : clean (lenZ prefix) (enc_new_to_vec prefix)) by (split; [constructor|cbn [enc_new_to_vec en_out]; lia]).
  destruct (good_calls_ok c (lenZ prefix) Hs Hl0 ops _ _ (inv_init prefix Hev) Hc Hg Hpl Hp Hk Hso ltac:(lia) ltac:(lia) Hpos) as [Hcalls Hclean].
  destruct (document c prefix ops Hs Hev Hcalls Hpos Hw) as (e' & Er & Hi & Hfin).
  destruct (run_ok c Hs ops _ _ (inv_init prefix Hev) Hcalls ltac:(lia) Hpos) as (e2 & Er2 & _ & Hpot).
  rewrite Er in Er2. injection Er2 as <-.
  destruct Hfin as (D & H1 & H2 & H3 & H4).
  { eapply good_closes_ok with (P := lenZ prefix); eauto; lia. }
  exists e', D. auto 6.
Qed.
End KP.

(** No condition on string keys. *)
Definition any_key : KeyPred := fun _ => True.
Lemma strings_any c e ops : @strings_ok any_key c e ops.
Proof. intros ops1 k ops2 e1 rs _ _ _. exact I. Qed.

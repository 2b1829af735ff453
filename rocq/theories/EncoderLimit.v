(** Below the size limit no call answers that a pointer is too large, whatever is written. *)
From Verif Require Import Prelude Lib Varint VarintProofs Utf8 SharedKeys Decode Encodable Encoder BuilderSpec TotalSpec
  Holds Repr EncodableProofs Stored SlotProofs EncoderProofs EncoderInv EncoderClean EncoderProtocol.
From Coq Require Import ZifyBool ZifyNat ZifyN Sorted Permutation.
Ltac Zify.zify_post_hook ::= Z.div_mod_to_equations.

(** The keys of a dict that were written outside lie below [n]. *)
Definition key_below (n : Z) (k : dictkey) : Prop :=
  match k with DKPointer _ off => 0 <= off <= n | _ => True end.
Definition coll_below (n : Z) (c : coll) : Prop :=
  match c with
  | CArr _ => True
  | CDict vs k => Forall (fun d => key_below n (de_key d)) vs /\ match k with Some k => key_below n k | None => True end
  end.
Record below (e : enc) : Prop := mk_below {
  bl_even : out_even e;
  bl_stack : Forall (coll_below (lenZ (en_out e))) (en_stack e);
}.

Lemma key_below_mono n m k : n <= m -> key_below n k -> key_below m k.
Proof. intros H. destruct k; cbn [key_below]; auto. lia. Qed.
Lemma coll_below_mono n m c : n <= m -> coll_below n c -> coll_below m c.
Proof.
  intros H. destruct c as [vs|vs k]; cbn [coll_below]; [auto|]. intros [H1 H2]. split.
  - eapply Forall_impl; [|exact H1]. intros d. apply key_below_mono. exact H.
  - destruct k; [eapply key_below_mono; eauto|exact I].
Qed.
Lemma stack_below_mono n m st : n <= m -> Forall (coll_below n) st -> Forall (coll_below m) st.
Proof. intros H. apply Forall_impl. intros c. apply coll_below_mono. exact H. Qed.

Lemma new_pointer_some off : off <= MAX_WIDE -> exists p, new_pointer off = Some p.
Proof.
  intros H. unfold new_pointer. destruct (MAX_WIDE <? off) eqn:E; [lia|].
  destruct (be_bytes 4 off) as [|b0 r] eqn:Eb; [|eauto].
  apply (f_equal (@length Z)) in Eb. rewrite be_bytes_length in Eb. discriminate.
Qed.

Lemma enc_write_len c e v w k e' off : enc_write c e v w k = Ret (e', off) -> out_even e ->
  grown e e' /\ out_even e' /\ off = wrap_u32 (lenZ (en_out e)) /\
  lenZ (en_out e') <= lenZ (en_out e) + (if w && negb k then Z.max (fleece_size v) 4 else fleece_size v) + 1.
Proof.
  intros H He. pose proof (enc_write_grown _ _ _ _ _ _ _ H) as [G Ho]. split; [exact G|].
  destruct G as (_ & _ & _ & _ & G5). split; [apply G5; exact He|]. split; [exact Ho|].
  unfold enc_write in H. set (n := if w && negb k then Z.max (fleece_size v) 4 else fleece_size v) in *.
  destruct (write_to (c_dbg c) v n w) as [[bs|]| | |]; try discriminate. cbn [bind] in H.
  destruct (lenZ bs =? n) eqn:El; [|discriminate]. injection H as <- <-. cbn [set_out en_out].
  rewrite pad_even_len, lenZ_app. lia.
Qed.
Lemma slot_len c e s w e' off : enc_write c e (ESized s) w false = Ret (e', off) -> out_even e ->
  grown e e' /\ out_even e' /\ lenZ (en_out e') <= lenZ (en_out e) + 4.
Proof.
  intros H He. pose proof (enc_write_len _ _ _ _ _ _ _ H He) as (G & Ge & _ & Hl). split; [exact G|]. split; [exact Ge|].
  assert (Hs : sized_fleece_size s = 2 \/ sized_fleece_size s = 4) by (unfold sized_fleece_size; destruct (sized_type s); auto; destruct (_ <? _); auto).
  cbn [fleece_size negb] in Hl. unfold out_even in *. destruct w; cbn [andb] in Hl; destruct Hs as [Hs|Hs]; rewrite Hs in Hl; lia.
Qed.
Lemma slots_len c w : forall vs e e', write_slots c e w vs = Ret e' -> out_even e ->
  grown e e' /\ out_even e' /\ lenZ (en_out e') <= lenZ (en_out e) + 4 * lenZ vs.
Proof.
  induction vs as [|s vs IH]; intros e e' H He; cbn [write_slots] in H.
  - injection H as <-. split; [apply grown_refl|]. split; [exact He|]. unfold lenZ; cbn [length]; lia.
  - destruct (enc_write c e (ESized s) w false) as [[e1 o]| | |] eqn:E; try discriminate. cbn [bind fst] in H.
    apply slot_len in E as (G & Ge & Hl); [|exact He]. apply IH in H as (G2 & Ge2 & Hl2); [|exact Ge].
    split; [eapply grown_trans; eauto|]. split; [exact Ge2|]. rewrite lenZ_cons. lia.
Qed.

(** Entries whose keys have been made relative. *)
Definition key_near (k : dictkey) : Prop := match k with DKPointer _ off => off <= MAX_WIDE | _ => True end.
Lemma entries_len c w : forall vs e e' r, write_entries c e w vs = Ret (e', r) -> out_even e ->
  Forall (fun d => key_near (de_key d)) vs ->
  r = Ok tt /\ grown e e' /\ out_even e' /\ lenZ (en_out e') <= lenZ (en_out e) + 8 * lenZ vs.
Proof.
  induction vs as [|d vs IH]; intros e e' r H He Hk; cbn [write_entries] in H.
  - injection H as <- <-. split; [reflexivity|]. split; [apply grown_refl|]. split; [exact He|]. unfold lenZ; cbn [length]; lia.
  - inversion Hk as [|? ? Hk1 Hk2]; subst. destruct (dictkey_sized (de_key d)) as [[ks|]| | |] eqn:Ek; try discriminate; cbn [bind] in H.
    + destruct (enc_write c e (ESized ks) w false) as [[e1 o]| | |] eqn:E; try discriminate. cbn [bind fst] in H.
      destruct (enc_write c e1 (ESized (de_val d)) w false) as [[e2 o2]| | |] eqn:E2; try discriminate. cbn [bind fst] in H.
      apply slot_len in E as (G & Ge & Hl); [|exact He]. apply slot_len in E2 as (G2 & Ge2 & Hl2); [|exact Ge].
      apply IH in H as (-> & G3 & Ge3 & Hl3); [|exact Ge2|exact Hk2].
      split; [reflexivity|]. split; [eapply grown_trans; [exact G|eapply grown_trans; eauto]|]. split; [exact Ge3|]. rewrite lenZ_cons. lia.
    + exfalso. destruct (de_key d) as [s|i|s off]; cbn [dictkey_sized key_near] in *; try discriminate.
      * destruct (u16_to_sized i); discriminate.
      * destruct (new_pointer_some off Hk1) as [p Hp]. congruence.
Qed.
Lemma fix_array_length dbg w : forall vs len vs', fix_array_pointers dbg len w vs = Ret vs' -> lenZ vs' = lenZ vs.
Proof.
  induction vs as [|s vs IH]; intros len vs' H; cbn [fix_array_pointers] in H; [injection H as <-; reflexivity|].
  destruct (if is_ptr s then fix_pointer dbg s len else Ret s) as [s'| | |]; try discriminate. cbn [bind] in H.
  destruct (u32_add dbg len w) as [l2| | |]; try discriminate. cbn [bind] in H.
  destruct (fix_array_pointers dbg l2 w vs) as [r| | |] eqn:E; try discriminate. cbn [bind] in H. injection H as <-.
  rewrite !lenZ_cons, (IH _ _ E). reflexivity.
Qed.
Lemma u32_sub_le dbg a b r : u32_sub dbg a b = Ret r -> 0 <= b <= a -> r <= a.
Proof. unfold u32_sub. destruct (b <=? a) eqn:E; [intros H; injection H as <-; lia|lia]. Qed.
Lemma u32_add_le dbg a b r : u32_add dbg a b = Ret r -> 0 <= a -> 0 <= b -> a + b < two32 -> r = a + b.
Proof.
  unfold u32_add. intros H Ha Hb Hn. destruct (a + b <? two32) eqn:E; [injection H as <-; reflexivity|lia].
Qed.
Lemma fix_dict_near dbg w : forall vs len vs', fix_dict_pointers dbg len w vs = Ret vs' -> 0 <= w <= 4 ->
  0 <= len -> len + 8 * lenZ vs <= MAX_WIDE -> Forall (fun d => key_below len (de_key d)) vs ->
  lenZ vs' = lenZ vs /\ Forall (fun d => key_near (de_key d)) vs'.
Proof.
  induction vs as [|d vs IH]; intros len vs' H Hw Hl0 Hl Hb; cbn [fix_dict_pointers] in H; [injection H as <-; split; [reflexivity|constructor]|].
  rewrite lenZ_cons in Hl. pose proof (lenZ_nonneg vs).
  inversion Hb as [|? ? Hb1 Hb2]; subst.
  match type of H with context [bind ?m _] => destruct m as [k'| | |] eqn:Ek; try discriminate end. cbn [bind] in H.
  destruct (u32_add dbg len w) as [l1| | |] eqn:E1; try discriminate. cbn [bind] in H.
  match type of H with context [bind ?m _] => destruct m as [v'| | |] eqn:Ev; try discriminate end. cbn [bind] in H.
  destruct (u32_add dbg l1 w) as [l2| | |] eqn:E2; try discriminate. cbn [bind] in H.
  destruct (fix_dict_pointers dbg l2 w vs) as [r| | |] eqn:E; try discriminate. cbn [bind] in H. injection H as <-.
  apply u32_add_le in E1; try (unfold two32, MAX_WIDE in *; lia). subst l1.
  apply u32_add_le in E2; try (unfold two32, MAX_WIDE in *; lia). subst l2.
  apply IH in E as [E3 E4]; try lia.
  - rewrite !lenZ_cons, E3. split; [reflexivity|]. constructor; [|exact E4]. cbn [de_key].
    destruct (de_key d) as [s|i|s off]; cbn [key_below] in Hb1; [injection Ek as <-; exact I..|].
    destruct (u32_sub dbg len off) as [o| | |] eqn:Es; try discriminate. cbn [bind] in Ek. injection Ek as <-.
    apply u32_sub_le in Es; [|exact Hb1]. cbn [key_near]. lia.
  - eapply Forall_impl; [|exact Hb2]. intros x. apply key_below_mono. lia.
Qed.

Lemma finished_below c e p e' r :
  finished_collection c e p = Ret (e', r) -> below e -> 0 <= p <= lenZ (en_out e) -> lenZ (en_out e) <= MAX_WIDE ->
  r <> Err PointerTooLarge /\ below e' /\ pot e' <= pot e + (match en_stack e with [] => 8 | _ => 4 end).
Proof.
  intros H [He Hst] Hp Hm. unfold finished_collection in H. unfold pot.
  destruct (en_stack e) as [|top st] eqn:Est.
  - rewrite wrap_u32_id in H by (pose proof (lenZ_nonneg (en_out e)); unfold two32, MAX_WIDE in *; lia).
    destruct (u32_sub _ _ _) as [off| | |] eqn:Eu; try discriminate. cbn [bind] in H.
    apply u32_sub_le in Eu; [|lia]. destruct (new_pointer_some off ltac:(lia)) as [q Eq]. rewrite Eq in H.
    destruct (off <=? MAX_NARROW).
    + destruct (enc_write c e _ _ _) as [[e1 o1]| | |] eqn:E; try discriminate. cbn [bind fst] in H.
      injection H as <- <-. apply slot_len in E as (G & Ge & Hl); [|exact He]. destruct G as (G1 & _).
      split; [discriminate|]. cbn [set_closed en_out en_stack]. rewrite G1, Est in *. split; [constructor; cbn [set_closed en_out en_stack]; [exact Ge|rewrite G1; constructor]|]. cbn [stack_pot]. lia.
    + destruct (enc_write c e _ _ _) as [[e1 o1]| | |] eqn:E; try discriminate. cbn [bind fst] in H.
      destruct (new_pointer 4) as [q4|]; [|discriminate].
      destruct (enc_write c e1 _ _ _) as [[e2 o2]| | |] eqn:E2; try discriminate. cbn [bind fst] in H.
      injection H as <- <-. apply slot_len in E as (G & Ge & Hl); [|exact He]. apply slot_len in E2 as (G2 & Ge2 & Hl2); [|exact Ge].
      destruct G as (G1 & _), G2 as (G21 & _). split; [discriminate|]. cbn [set_closed en_out en_stack].
      rewrite G21, G1, Est. split; [constructor; cbn [set_closed en_out en_stack]; [exact Ge2|rewrite G21, G1, Est; constructor]|]. cbn [stack_pot]. lia.
  - destruct (new_pointer_some p ltac:(lia)) as [q Eq]. rewrite Eq in H. inversion Hst as [|? ? Ht Hs]; subst.
    destruct top as [vs|vs [k|]]; injection H as <- <-; (split; [discriminate|]).
    + split; [constructor; cbn [set_stack en_out en_stack]; [exact He|constructor; [exact I|exact Hs]]|].
      cbn [set_stack en_out en_stack stack_pot coll_slots]. rewrite lenZ_app, lenZ_cons; unfold lenZ; cbn [length]; lia.
    + destruct Ht as [Ht1 Ht2]. split; [constructor; cbn [set_stack en_out en_stack]; [exact He|constructor; [|exact Hs]]|].
      * split; [|exact I]. apply Forall_app. split; [exact Ht1|]. constructor; [exact Ht2|constructor].
      * cbn [set_stack en_out en_stack stack_pot coll_slots]. rewrite lenZ_app, lenZ_cons; unfold lenZ; cbn [length]; lia.
    + split; [constructor; [exact He|rewrite Est; exact Hst]|]. rewrite Est. lia.
Qed.

(** Any value of a Rust type. *)
Lemma ctz_pos_le : forall p n, Zpos p < 2 ^ n -> ctz_pos p < n.
Proof.
  assert (H1 : forall p, 2 ^ ctz_pos p <= Zpos p).
  { induction p as [p IH|p IH|]; cbn [ctz_pos]; try (cbn; lia).
    assert (H0 : 0 <= ctz_pos p) by (clear; induction p; cbn [ctz_pos]; lia).
    rewrite Z.pow_add_r by lia. change (2 ^ 1) with 2. lia. }
  intros p n Hn. specialize (H1 p). destruct (Z.lt_ge_cases (ctz_pos p) n) as [|Hge]; [assumption|].
  assert (0 <= n) by (destruct (Z.le_gt_cases 0 n); [assumption|rewrite Z.pow_neg_r in Hn by lia; lia]).
  pose proof (Z.pow_le_mono_r 2 n (ctz_pos p) ltac:(lia) Hge). lia.
Qed.
Lemma wf_size v : wf_enc v -> 0 <= fleece_size v.
Proof.
  induction v as [t z|b|b|b| | |s|s| |w IH|s|d n]; cbn [fleece_size wf_enc]; intros H; try lia; try (apply fleece_size_nonneg_str); auto; try contradiction.
  assert (Hu : 0 <= z < 2 ^ 64 -> 0 <= u64_fleece_size z).
  { intros Hz. unfold u64_fleece_size. destruct (z <=? 2047) eqn:E; [lia|]. destruct z as [|p|p]; try lia. cbn [ctz64].
    pose proof (ctz_pos_le p 64 ltac:(lia)). lia. }
  assert (Hi : 0 <= i64_fleece_size z).
  { unfold i64_fleece_size. rewrite i64_is_short_true. lia. }
  destruct t; try exact Hi; try lia; apply Hu; cbn [ity_min ity_max] in H; unfold two64, two32 in *; lia.
Qed.
Lemma written_size o : written_op o -> 0 <= op_size o.
Proof.
  destruct o; cbn [written_op op_size]; intros H; try lia.
  - pose proof (fleece_size_nonneg_str k). lia.
  - pose proof (wf_size _ H). lia.
Qed.

Lemma below_same e e' : en_out e' = en_out e -> en_stack e' = en_stack e -> below e -> below e'.
Proof. intros H1 H2 [A B]. constructor; unfold out_even in *; rewrite ?H1, ?H2; assumption. Qed.

Lemma push_key_below e k : below e -> key_below (lenZ (en_out e)) k ->
  snd (push_key e k) <> Err PointerTooLarge /\ below (fst (push_key e k)) /\ pot (fst (push_key e k)) <= pot e + 4.
Proof.
  intros [He Hst] Hk. unfold push_key, pot. destruct (en_stack e) as [|[vs|vs [k2|]] st] eqn:Est; cbn [fst snd];
    try (split; [discriminate|]; split; [constructor; [exact He|rewrite Est; exact Hst]|rewrite Est; lia]).
  inversion Hst as [|? ? H0 H2]; subst. destruct H0 as [H1 _]. split; [discriminate|]. split.
  - constructor; cbn [set_stack en_out en_stack]; [exact He|]. constructor; [split; assumption|exact H2].
  - cbn [set_stack en_out en_stack stack_pot coll_slots]. lia.
Qed.
Lemma push_value_below e s : below e ->
  snd (push_value e s) <> Err PointerTooLarge /\ below (fst (push_value e s)) /\ pot (fst (push_value e s)) <= pot e + 4.
Proof.
  intros [He Hst]. unfold push_value, pot. destruct (en_stack e) as [|[vs|vs [k2|]] st] eqn:Est; cbn [fst snd];
    try (split; [discriminate|]; split; [constructor; [exact He|rewrite Est; exact Hst]|rewrite Est; lia]).
  - inversion Hst as [|? ? _ H2]; subst. split; [discriminate|]. split.
    + constructor; cbn [set_stack en_out en_stack]; [exact He|]. constructor; [exact I|exact H2].
    + cbn [set_stack en_out en_stack stack_pot coll_slots]. rewrite lenZ_app, lenZ_cons; unfold lenZ; cbn [length]; lia.
  - inversion Hst as [|? ? H0 H2]; subst. destruct H0 as [H1 H3]. split; [discriminate|]. split.
    + constructor; cbn [set_stack en_out en_stack]; [exact He|]. constructor; [|exact H2]. split; [|exact I].
      apply Forall_app. split; [exact H1|]. constructor; [exact H3|constructor].
    + cbn [set_stack en_out en_stack stack_pot coll_slots]. rewrite lenZ_app, lenZ_cons; unfold lenZ; cbn [length]; lia.
Qed.
Lemma grown_below e e' : below e -> grown e e' -> out_even e' -> below e'.
Proof.
  intros [He Hst] G Ge. pose proof (grown_len _ _ G). destruct G as (G1 & _). constructor; [exact Ge|].
  rewrite G1. eapply stack_below_mono; [|exact Hst]. lia.
Qed.
Lemma key_pointer_below c e k e' r : write_key_pointer c e k = Ret (e', r) -> below e ->
  pot e + op_size (OpKey k) <= MAX_WIDE ->
  r <> Err PointerTooLarge /\ below e' /\ pot e' <= pot e + op_size (OpKey k).
Proof.
  intros H Hb Hp. unfold write_key_pointer in H.
  destruct (enc_write c e (EStr k) false false) as [[e1 o1]| | |] eqn:E; try discriminate. cbn [bind] in H.
  apply enc_write_len in E as (G & Ge & -> & Hl); [|apply Hb]. pose proof (grown_below _ _ Hb G Ge) as Hb1. apply Ret_inj in H.
  pose proof (grown_len _ _ G). pose proof (fleece_size_nonneg_str k). pose proof (stack_pot_nonneg (en_stack e)). pose proof (lenZ_nonneg (en_out e)).
  destruct (push_key_below e1 (DKPointer k (wrap_u32 (lenZ (en_out e)))) Hb1) as (K1 & K2 & K3).
  { cbn [key_below]. unfold pot in Hp. cbn [op_size] in Hp. rewrite wrap_u32_id by (unfold two32, MAX_WIDE in *; lia). lia. }
  rewrite H in *. cbn [fst snd] in *. split; [exact K1|]. split; [exact K2|].
  cbn [op_size andb fleece_size] in *. destruct G as (G1 & _). unfold pot in *. rewrite G1 in K3. lia.
Qed.
Lemma hdr_write_len n w c e d e' o : 0 <= n <= MAX_WIDE -> enc_write c e (EHdr d n) w true = Ret (e', o) -> out_even e ->
  grown e e' /\ out_even e' /\ o = wrap_u32 (lenZ (en_out e)) /\ lenZ (en_out e') <= lenZ (en_out e) + 12.
Proof.
  intros Hn H He. apply enc_write_len in H as (G & Ge & Ho & Hl); [|exact He]. split; [exact G|]. split; [exact Ge|]. split; [exact Ho|].
  rewrite andb_false_r in Hl. cbn [fleece_size] in Hl. unfold hdr_fleece_size in Hl.
  assert (Hv : varint_size n <= 10) by (apply (varint_size_pos n); unfold two64, MAX_WIDE in *; lia).
  unfold out_even in *. destruct (VARINT_COUNT <=? n); lia.
Qed.

Lemma end_array_below c e e' r : end_array c e = Ret (e', r) -> below e -> pot e <= MAX_WIDE ->
  r <> Err PointerTooLarge /\ below e' /\ pot e' <= pot e.
Proof.
  intros H Hb Hp. pose proof Hb as [He Hst]. unfold end_array, pot in *. pose proof (lenZ_nonneg (en_out e)) as Hn0.
  destruct (en_stack e) as [|[vs|vs [nk|]] st] eqn:Est; cbn [stack_pop] in H.
  - injection H as <- <-. split; [discriminate|]. split; [constructor; [exact He|constructor]|]. cbn [set_stack en_out en_stack stack_pot]. lia.
  - cbn [stack_pot coll_slots] in *. pose proof (stack_pot_nonneg st). pose proof (lenZ_nonneg vs).
    destruct (array_should_be_wide _ _ _) as [w| | |]; try discriminate. cbn [bind] in H.
    destruct (enc_write c _ _ _ _) as [[e1 o1]| | |] eqn:E; try discriminate. cbn [bind] in H.
    apply hdr_write_len in E as (G & Ge & -> & Hl); [|unfold MAX_WIDE in *; lia|exact He]. cbn [set_stack en_out] in *.
    destruct (fix_array_pointers _ _ _ _) as [vs'| | |] eqn:Ef; try discriminate. cbn [bind] in H.
    apply fix_array_length in Ef.
    destruct (write_slots c e1 w vs') as [e2| | |] eqn:E2; try discriminate. cbn [bind] in H.
    apply slots_len in E2 as (G2 & Ge2 & Hl2); [|exact Ge].
    assert (Hb2 : below e2).
    { apply (grown_below (set_stack e st)); [|eapply grown_trans; eauto|exact Ge2]. constructor; [exact He|]. inversion Hst; assumption. }
    pose proof (grown_len _ _ G) as L1. pose proof (grown_len _ _ G2) as L2. cbn [set_stack en_out] in L1.
    rewrite wrap_u32_id in H by (unfold two32, MAX_WIDE in *; lia).
    apply finished_below in H as (K1 & K2 & K3); [|exact Hb2|lia|unfold MAX_WIDE in *; lia].
    split; [exact K1|]. split; [exact K2|]. pose proof (grown_trans _ _ _ G G2) as (Gs & _). cbn [set_stack en_stack] in Gs.
    unfold pot in K3. rewrite Gs in K3. destruct st; lia.
  - injection H as <- <-. split; [discriminate|]. split; [constructor; [exact He|exact Hst]|]. cbn [set_stack en_out en_stack]. lia.
  - injection H as <- <-. split; [discriminate|]. split; [constructor; [exact He|inversion Hst; assumption]|]. cbn [set_stack en_out en_stack stack_pot] in *. pose proof (coll_slots_nonneg (CDict vs None)). lia.
Qed.
Lemma end_dict_below c e e' r : sort_ok (c_sort c) -> end_dict c e = Ret (e', r) -> below e -> pot e <= MAX_WIDE ->
  r <> Err PointerTooLarge /\ below e' /\ pot e' <= pot e.
Proof.
  intros Hs H Hb Hp. pose proof Hb as [He Hst]. unfold end_dict, pot in *. pose proof (lenZ_nonneg (en_out e)) as Hn0.
  assert (Hsame : forall er, er <> PointerTooLarge -> Ret (e, Err er) = Ret (e', r) -> r <> Err PointerTooLarge /\ below e' /\
    lenZ (en_out e') + stack_pot (en_stack e') <= lenZ (en_out e) + stack_pot (en_stack e)).
  { intros er Her Hx. injection Hx as <- <-. split; [congruence|]. split; [exact Hb|lia]. }
  destruct (en_stack e) as [|[vs|vs [nk|]] st] eqn:Est; try (eapply Hsame; [|exact H]; discriminate).
  cbn [stack_pot coll_slots] in *. pose proof (stack_pot_nonneg st). pose proof (lenZ_nonneg vs).
  inversion Hst as [|? ? Htop Hst2]; subst. destruct Htop as [Hk _]. destruct (Hs vs) as [Hperm _].
  assert (Hlen : lenZ (c_sort c vs) = lenZ vs) by (unfold lenZ; rewrite (Permutation_length Hperm); reflexivity).
  cbn [set_stack en_out] in H.
  destruct (dict_should_be_wide _ _ _ _) as [w| | |]; try discriminate. cbn [bind] in H.
  destruct (enc_write c _ _ _ _) as [[e1 o1]| | |] eqn:E; try discriminate. cbn [bind] in H.
  apply hdr_write_len in E as (G & Ge & -> & Hl); [|unfold MAX_WIDE in *; lia|exact He]. cbn [set_stack en_out] in *.
  pose proof (grown_len _ _ G) as L1. cbn [set_stack en_out] in L1.
  rewrite (wrap_u32_id (lenZ (en_out e1))) in H by (unfold two32, MAX_WIDE in *; lia).
  destruct (fix_dict_pointers _ _ _ _) as [vs'| | |] eqn:Ef; try discriminate. cbn [bind] in H.
  apply fix_dict_near in Ef as [Ef1 Ef2]; [|destruct w; cbn; lia|lia|lia|].
  2:{ eapply Forall_impl; [|eapply Permutation_Forall; eassumption]. intros d. apply key_below_mono. lia. }
  destruct (write_entries c e1 w vs') as [[e2 r2]| | |] eqn:E2; try discriminate. unfold eseq in H; cbn [bind fst snd] in H.
  apply entries_len in E2 as (-> & G2 & Ge2 & Hl2); [|exact Ge|exact Ef2].
  pose proof (grown_len _ _ G2) as L2.
  assert (Hb2 : below e2).
  { apply (grown_below (set_stack e st)); [|eapply grown_trans; eauto|exact Ge2]. constructor; [exact He|exact Hst2]. }
  rewrite wrap_u32_id in H by (unfold two32, MAX_WIDE in *; lia).
  apply finished_below in H as (K1 & K2 & K3); [|exact Hb2|lia|unfold MAX_WIDE in *; lia].
  split; [exact K1|]. split; [exact K2|]. pose proof (grown_trans _ _ _ G G2) as (Gs & _). cbn [set_stack en_stack] in Gs.
  unfold pot in K3. rewrite Gs in K3. destruct st; lia.
Qed.

Lemma step_below c e o e' r : sort_ok (c_sort c) -> enc_step c e o = Ret (e', r) -> below e -> written_op o ->
  pot e + op_size o <= MAX_WIDE ->
  r <> Err PointerTooLarge /\ below e' /\ pot e' <= pot e + op_size o.
Proof.
  intros Hs H Hb Hw Hp. pose proof Hb as [He Hst]. destruct o as [k|v|n| | | |t]; cbn [enc_step] in H.
  - pose proof (fleece_size_nonneg_str k) as Hfs. unfold write_key in H. destruct (to_sized_value (EStr k)) as [s|].
    + apply Ret_inj in H. pose proof (push_key_below e (DKInline s) Hb I) as Hk. rewrite H in Hk. cbn [fst snd op_size] in *. destruct Hk as (K1 & K2 & K3). split; [exact K1|]. split; [exact K2|lia].
    + unfold write_key_long in H. destruct (en_sk e) as [t|]; [|eapply key_pointer_below; eauto].
      destruct (en_stack e) as [|[vs|vs nk] st] eqn:Est;
        try (injection H as <- <-; split; [discriminate|]; split; [exact Hb|cbn [op_size]; lia]).
      destruct (encode_and_insert (c_ua c) t k) as [t' [i|]].
      * apply Ret_inj in H. pose proof (push_key_below (set_sk e (Some t')) (DKShared i)) as Hk. rewrite H in Hk. cbn [fst snd op_size] in *.
        destruct Hk as (K1 & K2 & K3); [apply (below_same e); auto|exact I|]. change (pot (set_sk e (Some t'))) with (pot e) in K3. split; [exact K1|]. split; [exact K2|lia].
      * apply key_pointer_below in H; [|apply (below_same e); auto|exact Hp]. exact H.
  - cbn [written_op] in Hw. pose proof (wf_size v Hw) as Hfs. unfold write_value in H.
    destruct (en_stack e) as [|cc st] eqn:Est; [injection H as <- <-; split; [discriminate|]; split; [exact Hb|cbn [op_size]; lia]|].
    destruct (to_sized_value v) as [s|].
    + apply Ret_inj in H. pose proof (push_value_below e s Hb) as Hk. rewrite H in Hk. cbn [fst snd op_size] in *. destruct Hk as (K1 & K2 & K3). split; [exact K1|]. split; [exact K2|lia].
    + destruct (enc_write c e v false false) as [[e1 o1]| | |] eqn:E; try discriminate. cbn [bind] in H.
      apply enc_write_len in E as (G & Ge & -> & Hl); [|exact He]. cbn [andb] in Hl. pose proof (grown_below _ _ Hb G Ge) as Hb1.
      pose proof (stack_pot_nonneg (en_stack e)). pose proof (lenZ_nonneg (en_out e)). pose proof (grown_len _ _ G). cbn [op_size] in *. unfold pot in Hp.
      rewrite wrap_u32_id in H by (unfold two32, MAX_WIDE in *; lia).
      destruct (new_pointer_some (lenZ (en_out e)) ltac:(unfold MAX_WIDE in *; lia)) as [q Eq]. rewrite Eq in H.
      apply Ret_inj in H. pose proof (push_value_below e1 q Hb1) as Hk. rewrite H in Hk. cbn [fst snd] in Hk.
      destruct Hk as (K1 & K2 & K3). split; [exact K1|]. split; [exact K2|]. destruct G as (G1 & _). unfold pot in *. rewrite G1 in K3. lia.
  - cbn [op_size]. unfold begin_array in H. destruct (en_closed e), (top_waits_for_key (en_stack e)), (two63 <=? n * 4);
      try discriminate; injection H as <- <-; (split; [discriminate|]); (split; [|unfold pot; cbn [set_stack en_out en_stack stack_pot coll_slots]; unfold lenZ; cbn [length]; lia]);
      first [exact Hb|constructor; [exact He|constructor; [exact I|exact Hst]]].
  - cbn [op_size] in *. rewrite Z.add_0_r in *. eapply end_array_below; eauto.
  - cbn [op_size]. unfold begin_dict in H. destruct (en_closed e), (top_waits_for_key (en_stack e));
      try discriminate; injection H as <- <-; (split; [discriminate|]); (split; [|unfold pot; cbn [set_stack en_out en_stack stack_pot coll_slots]; unfold lenZ; cbn [length]; lia]);
      first [exact Hb|constructor; [exact He|constructor; [split; [constructor|exact I]|exact Hst]]].
  - cbn [op_size] in *. rewrite Z.add_0_r in *. eapply end_dict_below; eauto.
  - injection H as <- <-. split; [discriminate|]. split; [apply (below_same e); auto|]. unfold pot, set_shared_keys. cbn [set_sk en_out en_stack op_size]. lia.
Qed.

Lemma ops_size_nonneg ops : Forall written_op ops -> 0 <= ops_size ops.
Proof. induction 1 as [|o l H _ IH]; cbn [ops_size fold_right]; [lia|]. fold (ops_size l). pose proof (written_size _ H). lia. Qed.
Lemma run_below c : sort_ok (c_sort c) -> forall ops e e' rs, enc_run c e ops = Ret (e', rs) -> below e -> Forall written_op ops ->
  pot e + ops_size ops <= MAX_WIDE ->
  ~ In (Err PointerTooLarge) rs /\ below e' /\ pot e' <= pot e + ops_size ops.
Proof.
  intros Hs. induction ops as [|o ops IH]; intros e e' rs H Hb Hw Hp; cbn [enc_run ops_size fold_right] in *.
  - injection H as <- <-. split; [intros []|]. split; [exact Hb|lia].
  - fold (ops_size ops) in *. inversion Hw as [|? ? Hw1 Hw2]; subst. pose proof (written_size _ Hw1). pose proof (ops_size_nonneg _ Hw2).
    destruct (enc_step c e o) as [[e1 r1]| | |] eqn:E; try discriminate. cbn [bind fst snd] in H.
    destruct (enc_run c e1 ops) as [[e2 r2]| | |] eqn:E2; try discriminate. cbn [bind fst snd] in H. injection H as <- <-.
    apply step_below in E as (K1 & K2 & K3); [|assumption..|lia]. apply IH in E2 as (K4 & K5 & K6); [|assumption..|lia].
    split; [intros [Hx|Hx]; [congruence|apply K4; exact Hx]|]. split; [exact K5|lia].
Qed.
Lemma never_too_large c prefix ops e' rs :
  sort_ok (c_sort c) -> lenZ prefix mod 2 = 0 -> Forall written_op ops -> lenZ prefix + ops_size ops <= MAX_WIDE ->
  enc_run c (enc_new_to_vec prefix) ops = Ret (e', rs) -> ~ In (Err PointerTooLarge) rs.
Proof.
  intros Hs Hev Hw Hn H. eapply run_below; [exact Hs|exact H| |exact Hw|].
  - constructor; [exact Hev|constructor].
  - unfold pot. cbn [enc_new_to_vec en_out en_stack stack_pot]. lia.
Qed.

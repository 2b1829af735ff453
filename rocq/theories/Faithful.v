(** What the encoder writes means, by the format, what was put in. *)
From Coq Require Import ZifyBool ZifyNat ZifyN.
From Verif Require Import Prelude Varint Utf8 Float FloatProofs SharedKeys Decode Read Lib VarintProofs ReadSpec TextSpec TextProofs
  Encodable Encoder BuilderSpec LayoutSpec Holds Repr Stored StoredRead EncoderInv EncoderClean EncoderLayout EncoderProtocol TotalSpec EncoderTotal
  UntrustedSpec Safety Navigate Untrusted PanicSpec Panics GrammarSpec Grammar MeaningSpec Meaning FaithfulSpec.
From Verif Require Damage.
Ltac Zify.zify_post_hook ::= Z.div_mod_to_equations.
Local Open Scope Z_scope.

Lemma holds_at D p b bs : holds D p (b :: bs) -> nthZ D p = Some b.
Proof. intros (a & c & -> & ->). rewrite nthZ_app_r by lia. rewrite Z.sub_diag. reflexivity. Qed.

(* ---------- pointers ---------- *)

Lemma ptr_distance D q wide off : 0 <= off / 2 < ptr_limit wide -> off mod 2 = 0 -> holds D q (ptr_bytes wide off) ->
  distance D q wide off /\ exists b, byte_at D q b /\ 128 <= b < 192.
Proof.
  unfold ptr_limit, ptr_bytes, distance, byte_at. intros Hl He H. destruct wide.
  - rewrite be4 in H by lia. pose proof (holds_at _ _ _ _ H) as B0. apply holds_cons in H as [_ H]. pose proof (holds_at _ _ _ _ H) as B1.
    apply holds_cons in H as [_ H]. pose proof (holds_at _ _ _ _ H) as B2. apply holds_cons in H as [_ H]. pose proof (holds_at _ _ _ _ H) as B3.
    replace (q + 1 + 1) with (q + 2) in * by lia. replace (q + 2 + 1) with (q + 3) in * by lia. split.
    + eexists _, _, _, _. split; [exact B0|]. split; [exact B1|]. split; [exact B2|]. split; [exact B3|]. lia.
    + eexists. split; [exact B0|lia].
  - rewrite be2 in H by lia. pose proof (holds_at _ _ _ _ H) as B0. apply holds_cons in H as [_ H]. pose proof (holds_at _ _ _ _ H) as B1. split.
    + eexists _, _. split; [exact B0|]. split; [exact B1|]. lia.
    + eexists. split; [exact B0|lia].
Qed.
Lemma ptr_slot D q wide off b : 0 < off <= q -> off / 2 < ptr_limit wide -> off mod 2 = 0 -> holds D q (ptr_bytes wide off) ->
  byte_at D (q - off) b -> b < 128 -> MeaningSpec.slot D wide q (q - off) off.
Proof.
  intros Ho Hl He H Hb Hr. right. destruct (ptr_distance D q wide off ltac:(lia) He H) as (Hd & b' & Hb' & Hr').
  eapply lead_here; try eassumption. lia.
Qed.

Section Faithful.
Context {SP : KeyPred}.
Variable e : env.
Hypothesis Hwf : wf_env e.
Hypothesis Hdbg : e_dbg e = true.
Local Notation bs := (e_data e).
Local Notation F := (means AsFormat (e_data e) (e_sk e)).

Lemma repr_good t s p l : repr t s -> holds bs p s -> lenZ s <= l -> p + l <= lenZ bs -> gd e (V p l).
Proof using.
  intros (H2 & _ & Hr) Hh Hl Hin. destruct (Hr e p l Hh Hl) as (_ & Hsz & ty & Hty & Hsc). apply holds_bounds in Hh.
  exists (lenZ bs). split; [|lia]. apply (good_scalar e (V p l) (lenZ bs) ty (lenZ s)); cbn [v_pos v_len]; try assumption; try lia.
  - unfold inslice; cbn [v_pos v_len]. lia.
  - destruct ty; discriminate.
  - unfold is_coll. destruct ty; cbn in Hsc; intros [H|H]; discriminate.
Qed.
Lemma repr_byte t s p l : repr t s -> holds bs p s -> lenZ s <= l -> p + l <= lenZ bs -> exists b, byte_at bs p b /\ b < 96 /\ exists r, s = b :: r.
Proof using Hwf.
  intros Hr Hh Hl Hin. pose proof (repr_good t s p l Hr Hh Hl Hin) as Hg. destruct Hr as (H2 & _ & Hr). destruct (Hr e p l Hh Hl) as (_ & _ & ty & Hty & Hsc).
  destruct s as [|b r]; [cbn in H2; lia|]. pose proof (holds_at _ _ _ _ Hh) as Hb. exists b. split; [exact Hb|]. split; [|eauto].
  rewrite (type_here e Hwf (V p l) b Hg Hb) in Hty. apply ret_inj in Hty. subst ty. unfold type_in in Hsc.
  repeat match type of Hsc with context[b <? ?n] => destruct (b <? n) eqn:?; try lia end; discriminate.
Qed.

Lemma repr_means t s p l : repr t s -> holds bs p s -> lenZ s <= l -> p + l <= lenZ bs -> exists t', F p l t' /\ calm t' = t.
Proof using Hwf Hdbg.
  intros Hr Hh Hl Hin. pose proof (repr_good t s p l Hr Hh Hl Hin) as Hg. destruct (repr_byte t s p l Hr Hh Hl Hin) as (b & Hb & H96 & r & Es).
  destruct Hr as (H2 & (_ & Hm) & Hr). destruct (Hr e p l Hh Hl) as (Ht & _). specialize (Ht O).
  apply (scalar_iff e Hwf (or_introl Hdbg) O (V p l) b Hg Hb H96) in Ht. cbn [v_pos v_len] in Ht. rewrite Es in Hm. destruct Hm as (Hm1 & Hm2).
  clear Hr. inversion Ht; subst; try (eexists; split; [econstructor; eassumption|reflexivity]); same_byte.
  - eexists. split; [eapply means_special; eassumption|]. destruct (b =? 52), (b =? 56), (b =? 60); reflexivity.
  - (* an integer with sign *)
    match goal with H : 16 <= _ < 24 |- _ => specialize (Hm1 H) end. injection Hm1 as -> ->.
    exists (TInt 0). assert (X0 : x = 0).
    { change (Z.to_nat (16 - 15)) with 1%nat in *.
      match goal with H : number_at _ _ 1 x |- _ => inversion H as [|? ? b1 y B1 Hy]; subst; inversion Hy; subst end.
      apply holds_cons in Hh as [_ Hh]. apply holds_at in Hh. unfold byte_at in B1. rewrite Hh in B1. injection B1 as <-. reflexivity. }
    subst x. split; [eapply means_int; [exact Hb|lia|eassumption|reflexivity]|].
    match goal with H : integer _ _ _ _ |- _ => cbn [integer] in H; cbn in H; subst end. reflexivity.
  - match goal with H : float32 _ _ _ |- _ => cbn [float32] in H; subst end. eexists. split; [eapply means_float; [exact Hb|eassumption..|reflexivity]|]. reflexivity.
  - (* a text *)
    match goal with H : 64 <= _ < 80 |- _ => destruct (Hm2 H) as (u & Eu & Hu & Hv) end. rewrite Eu in Hh, Hl.
    destruct (str_repr_common e p l 64 u TyString (or_introl (conj eq_refl eq_refl)) Hu Hh Hl) as (_ & (d & Hd & Hc) & _).
    destruct (contents_read e Hwf (or_introl Hdbg) (V p l) b Hg Hb ltac:(lia)) as (s & Hs & Hs'). rewrite Hd in Hs'. cbn [bind] in Hs'. rewrite Hc in Hs'. apply ret_inj in Hs'. subst s.
    cbn [v_pos v_len] in Hs. match goal with H : contents _ _ _ _ ?y |- _ => pose proof (contents_fun e _ _ _ _ _ Hs H) as Ey; subst y end.
    match goal with H : MeaningSpec.text _ _ _ |- _ => apply text_str in H; rewrite Hv in H; subst end.
    eexists. split; [eapply means_string; [exact Hb|lia|exact Hs|left; split; [apply valid_iff; exact Hv|reflexivity]]|reflexivity].
  - match goal with H : header _ _ _ _ _ _ |- _ => pose proof (Meaning.header_byte e _ _ _ _ _ _ H Hb) end. lia.
  - lia.
Qed.

(* ---------- collections ---------- *)

Lemma width_is (wide : bool) : (if wide then 4 else 2) = width_of wide.
Proof using. destruct wide; reflexivity. Qed.
Lemma inline_slot wide q b : byte_at bs q b -> b < 128 -> MeaningSpec.slot bs wide q q (width_of wide).
Proof using. intros Hb Hr. left. split; [reflexivity|]. split; [destruct wide; reflexivity|eauto]. Qed.

Lemma elements_build wide : forall ts q,
  (forall i t, nthZ ts i = Some t -> exists p l t', MeaningSpec.slot bs wide (q + i * width_of wide) p l /\ F p l t' /\ calm t' = t) ->
  exists ts', elements AsFormat bs (e_sk e) wide q ts' /\ map calm ts' = ts.
Proof using.
  induction ts as [|t ts IH]; intros q H; [exists []; split; [constructor|reflexivity]|].
  destruct (H 0 t (nthZ_cons_0 t ts)) as (p & l & t' & Hs & Hm & Ht). destruct (IH (q + width_of wide)) as (ts' & Hts & Ets).
  { intros i x Hi. pose proof (nthZ_Some _ _ _ Hi) as Hb. destruct (H (i + 1) x) as (p' & l' & x' & Hx); [rewrite nthZ_cons_S by lia; replace (i + 1 - 1) with i by lia; exact Hi|].
    exists p', l', x'. replace (q + width_of wide + i * width_of wide) with (q + (i + 1) * width_of wide) by lia. exact Hx. }
  exists (t' :: ts'). split; [|cbn [map]; congruence]. replace (q + 0 * width_of wide) with q in Hs by lia.
  econstructor; [exact Hs|exact Hm|]. rewrite width_is. exact Hts.
Qed.
Definition calm_entry (kx : list Z * tree) := (fst kx, calm (snd kx)).
Lemma entries_build wide : forall (kts : list (list Z * tree)) q,
  (forall i k t, nthZ kts i = Some (k, t) ->
     (exists p l, MeaningSpec.slot bs wide (q + 2 * i * width_of wide) p l /\ MeaningSpec.key AsFormat bs (e_sk e) p l k) /\
     exists p l t', MeaningSpec.slot bs wide (q + (2 * i + 1) * width_of wide) p l /\ F p l t' /\ calm t' = t) ->
  exists es, entries AsFormat bs (e_sk e) wide q (lenZ kts) es /\ map calm_entry es = kts.
Proof using.
  induction kts as [|[k t] kts IH]; intros q H; [exists []; split; [constructor|reflexivity]|].
  destruct (H 0 k t (nthZ_cons_0 _ kts)) as ((kp & kl & Hks & Hk) & p & l & t' & Hs & Hm & Ht). destruct (IH (q + 2 * width_of wide)) as (es & Hes & Ees).
  { intros i k' x Hi. pose proof (nthZ_Some _ _ _ Hi) as Hb. destruct (H (i + 1) k' x) as (H1 & H2); [rewrite nthZ_cons_S by lia; replace (i + 1 - 1) with i by lia; exact Hi|].
    replace (q + 2 * width_of wide + 2 * i * width_of wide) with (q + 2 * (i + 1) * width_of wide) by lia.
    replace (q + 2 * width_of wide + (2 * i + 1) * width_of wide) with (q + (2 * (i + 1) + 1) * width_of wide) by lia. auto. }
  exists ((k, t') :: es). split; [|cbn [map]; unfold calm_entry at 1; cbn [fst snd]; congruence]. rewrite lenZ_cons. pose proof (lenZ_nonneg kts).
  replace (q + 2 * 0 * width_of wide) with q in Hks by lia. replace (q + (2 * 0 + 1) * width_of wide) with (q + width_of wide) in Hs by lia.
  econstructor; [lia|exact Hks|exact Hk| |exact Hm|]; cbv zeta; rewrite width_is; [exact Hs|]. replace (lenZ kts + 1 - 1) with (lenZ kts) by lia. exact Hes.
Qed.

Lemma hdr_header p l tag n wide : tag = 96 \/ tag = 112 -> 0 <= n < two63 -> holds bs p (hdr_bytes tag n wide) -> hdr_size n <= l -> p + l <= lenZ bs ->
  header bs p l wide (if tag =? 96 then n else 2 * n) (p + hdr_size n) /\ exists b, byte_at bs p b /\ tag <= b < tag + 16.
Proof using Hwf Hdbg.
  intros Ht Hn Hh Hl Hin. assert (Hb : exists b, byte_at bs p b /\ tag <= b < tag + 16).
  { pose proof (hdr_min n Hn). unfold hdr_bytes in Hh. apply holds_at in Hh. eexists. split; [exact Hh|]. destruct wide; lia. }
  split; [|exact Hb]. destruct Hb as (b & Hb & Hr). pose proof (hdr_size_bounds n ltac:(unfold two63, two64 in *; lia)). pose proof (holds_bounds _ _ _ Hh) as Hp.
  apply (header_read e Hwf (or_introl Hdbg) (V p l) b); cbn [v_pos v_len]; try assumption; try lia.
  - unfold inslice; cbn [v_pos v_len]. lia.
  - eapply hdr_wide; eassumption.
  - eapply hdr_arr_len; eassumption.
  - eapply hdr_first; eassumption.
Qed.
Lemma stored_byte t p lim : stored bs (e_sk e) t p lim -> exists b, byte_at bs p b /\ b < 128.
Proof using Hwf.
  intros Hs. destruct Hs as [t s p Hr Hh Hp|ts p wide Hp Hh Hlim Hsl|kts p wide Hp Hh Hlim Hsrt Hk Hsl].
  - pose proof (holds_bounds _ _ _ Hh). destruct (repr_byte t s p (lenZ s) Hr Hh ltac:(lia) ltac:(lia)) as (b & Hb & H96 & _). exists b. split; [exact Hb|lia].
  - unfold hdr_bytes in Hh. apply holds_at in Hh. eexists. split; [exact Hh|]. destruct wide; lia.
  - unfold hdr_bytes in Hh. apply holds_at in Hh. eexists. split; [exact Hh|]. destruct wide; lia.
Qed.

Lemma string_key_means k s p l : repr (TStr k) s -> holds bs p s -> lenZ s <= l -> p + l <= lenZ bs -> MeaningSpec.key AsFormat bs (e_sk e) p l k.
Proof using Hwf Hdbg.
  intros Hr Hh Hl Hin. destruct (repr_means _ _ _ _ Hr Hh Hl Hin) as (t' & Hm & Et).
  destruct Hm; cbn [calm] in Et; try discriminate Et.
  - destruct (b =? 52), (b =? 56), (b =? 60); discriminate Et.
  - injection Et as ->. eapply key_string; eassumption.
Qed.
Lemma key_slot_means wide bound q kk k : key_slot bs (e_sk e) wide bound q kk k -> bound <= q -> q + width_of wide <= lenZ bs ->
  exists p l, MeaningSpec.slot bs wide q p l /\ MeaningSpec.key AsFormat bs (e_sk e) p l k.
Proof using Hwf Hdbg.
  intros Hk Hb Hin. pose proof (width_bounds wide) as [Hw _]. destruct Hk as [k b0 b1 _ Hr Hh|k off s _ Ho He Hlt Hh Hr Hs Hev Hle|k i tb Hi Etb Hd Hh].
  - exists q, (width_of wide). split; [|eapply string_key_means; try eassumption; cbn; lia].
    destruct (repr_byte _ _ q (width_of wide) Hr Hh ltac:(cbn; lia) Hin) as (b & B & H96 & _). apply (inline_slot wide q b B). lia.
  - pose proof (holds_bounds _ _ _ Hs). exists (q - off), off. split; [|eapply string_key_means; try eassumption; lia].
    destruct (repr_byte _ _ (q - off) off Hr Hs ltac:(lia) ltac:(lia)) as (b & B & H96 & _). apply (ptr_slot bs q wide off b); try assumption; lia.
  - exists q, (width_of wide). unfold short_bytes in Hh.
    assert (E : wrap_u16 i = i) by (unfold wrap_u16, two16; lia). rewrite E in Hh.
    pose proof (holds_at _ _ _ _ Hh) as B0. apply holds_cons in Hh as [_ Hh]. apply holds_at in Hh. split; [eapply inline_slot; [exact B0|lia]|].
    eapply key_shared; [exact B0|lia|exact Hh|exact Etb|]. replace ((i / 256) mod 16 * 256 + i mod 256) with i by lia. exact Hd.
Qed.

Theorem stored_means :
  (forall t p lim, stored bs (e_sk e) t p lim -> forall l, lim <= p + l -> p + l <= lenZ bs -> exists t', F p l t' /\ calm t' = t) /\
  (forall wide b q t, Stored.slot bs (e_sk e) wide b q t -> b <= q -> q + width_of wide <= lenZ bs ->
     exists p l t', MeaningSpec.slot bs wide q p l /\ F p l t' /\ calm t' = t).
Proof using Hwf Hdbg.
  pose proof Hwf as (_ & HB0 & HB1).
  apply (stored_slot_ind bs (e_sk e)
    (fun t p lim _ => forall l, lim <= p + l -> p + l <= lenZ bs -> exists t', F p l t' /\ calm t' = t)
    (fun wide b q t _ => b <= q -> q + width_of wide <= lenZ bs -> exists p l t', MeaningSpec.slot bs wide q p l /\ F p l t' /\ calm t' = t)).
  - intros t s p Hr Hh Hp l Hl Hin. eapply repr_means; try eassumption. lia.
  - intros ts p wide Hp Hh Hlim Hsl IH l Hl Hin. pose proof (holds_bounds _ _ _ Hh) as (Hp0 & _). pose proof (width_bounds wide) as [Hw _]. pose proof (lenZ_nonneg ts).
    assert (Hs0 : 0 <= hdr_size (lenZ ts)) by (unfold hdr_size, varint_size; pose proof (Z.log2_nonneg (lenZ ts)); destruct (2047 <=? lenZ ts), (lenZ ts =? 0); lia).
    assert (Hn : 0 <= lenZ ts < two63) by (eapply (lenZ_lt_two63 ts bs p (hdr_size (lenZ ts)) (width_of wide)); lia).
    destruct (hdr_header p l 96 (lenZ ts) wide (or_introl eq_refl) Hn Hh ltac:(nia) Hin) as (Hhd & b & Hb & Hr). cbn [Z.eqb Pos.eqb] in Hhd.
    destruct (elements_build wide ts (p + hdr_size (lenZ ts))) as (ts' & Hel & Ets).
    { intros i t Hi. apply (IH i t Hi); apply nthZ_Some in Hi; nia. }
    exists (TArr ts'). split; [|cbn [calm]; congruence]. eapply means_array; [exact Hb|lia| |exact Hel]. rewrite <- Ets, lenZ_map in Hhd. rewrite <- Ets, lenZ_map. exact Hhd.
  - intros kts p wide Hp Hh Hlim Hsrt Hk Hsl IH l Hl Hin. pose proof (holds_bounds _ _ _ Hh) as (Hp0 & _). pose proof (width_bounds wide) as [Hw _]. pose proof (lenZ_nonneg kts).
    assert (Hs0 : 0 <= hdr_size (lenZ kts)) by (unfold hdr_size, varint_size; pose proof (Z.log2_nonneg (lenZ kts)); destruct (2047 <=? lenZ kts), (lenZ kts =? 0); lia).
    assert (Hn : 0 <= lenZ kts < two63) by (eapply (lenZ_lt_two63 kts bs p (hdr_size (lenZ kts)) (width_of wide)); try lia; nia).
    destruct (hdr_header p l 112 (lenZ kts) wide (or_intror eq_refl) Hn Hh ltac:(nia) Hin) as (Hhd & b & Hb & Hr). cbn [Z.eqb Pos.eqb] in Hhd.
    destruct (entries_build wide (map snd kts) (p + hdr_size (lenZ kts))) as (es & Hel & Ees).
    { intros i k t Hi. rewrite nthZ_map in Hi. change (option_map snd (@nthZ entry kts i) = Some (k, t)) in Hi. destruct (@nthZ entry kts i) as [[kk [k' t']]|] eqn:Ei; [|discriminate]. cbn [option_map snd] in Hi. assert (k' = k) by congruence. assert (t' = t) by congruence. subst k' t'. pose proof (nthZ_Some _ _ _ Ei) as Hii. split.
      - eapply key_slot_means; [exact (Hk i kk k t Ei)|nia|nia].
      - apply (IH i kk k t Ei); nia. }
    exists (TDict es). split; [|cbn [calm]; change (TDict (map calm_entry es) = TDict (map snd kts)); congruence]. eapply means_dict; [exact Hb|lia|exact Hhd|]. rewrite lenZ_map in Hel. exact Hel.
  - intros wide b q t b0 b1 Hr Hh Hbq Hin. pose proof (width_bounds wide) as [Hw _].
    destruct (repr_means t [b0; b1] q (width_of wide) Hr Hh ltac:(cbn; lia) Hin) as (t' & Hm & Et). exists q, (width_of wide), t'. split; [|auto].
    destruct (repr_byte _ _ q (width_of wide) Hr Hh ltac:(cbn; lia) Hin) as (b' & B & H96 & _). apply (inline_slot wide q b' B). lia.
  - intros wide b q t off lim Ho He Hlt Hh Hst IH Hlim Hb Hin. pose proof (stored_bounds _ _ _ _ _ Hst). pose proof (width_bounds wide) as [Hw _].
    destruct (IH off ltac:(lia) ltac:(lia)) as (t' & Hm & Et). exists (q - off), off, t'. split; [|auto].
    destruct (stored_byte _ _ _ Hst) as (b' & B & H128). apply (ptr_slot bs q wide off b'); try assumption; lia.
Qed.
Theorem vstored_means t v : vstored e (e_sk e) t v -> v_pos v + v_len v <= lenZ bs -> exists t', F (v_pos v) (v_len v) t' /\ calm t' = t.
Proof using Hwf Hdbg.
  intros [(s & Hr & Hh & Hl)|(lim & Hs & Hl)] Hin.
  - eapply repr_means; eassumption.
  - eapply (proj1 stored_means); eassumption.
Qed.
End Faithful.

(* ---------- whole documents ---------- *)

#[local] Existing Instance any_key.
Theorem written_means c prefix ops e' rs t :
  sort_ok (c_sort c) -> lenZ prefix mod 2 = 0 -> all_bytes prefix ->
  Forall good_op ops -> keys_ok false ops ->
  layout_ok (c_ua c) (lenZ prefix) ops -> lenZ prefix + ops_size ops <= MAX_WIDE ->
  enc_run c (enc_new_to_vec prefix) ops = Ret (e', rs) -> Forall (eq (Ok tt)) rs ->
  b_finish (fst (b_run b_init ops)) = Some t ->
  exists D p l, finish c e' = Ret (prefix ++ D) /\ document (prefix ++ D) p l /\
    (exists t', means AsFormat (prefix ++ D) (en_sk e') p l t') /\
    forall t', means AsFormat (prefix ++ D) (en_sk e') p l t' -> tsim t (calm t').
Proof.
  intros Hs Hev Hpb Hg Hk Hn Hw Hrun Hok Ht.
  destruct (run_all_ok c ops _ _ _ _ Hrun (sh_init prefix) Hok) as [Hacc _].
  assert (Hp : polite b_init ops) by (apply accepted_polite; [intros Hx; exfalso; apply Hx; reflexivity|exact Hacc]).
  destruct (any_document c prefix ops Hs Hev Hg Hk Hp (strings_any _ _ _) Hn Hw) as (e2 & D & Er & Ef & _ & Hlen & Hd).
  rewrite Hrun in Er. injection Er as <- _.
  destruct (always_answers c prefix ops Hs Hev Hpb) as (e3 & rs3 & bs3 & E3 & _ & _ & F3 & B3 & _); [|exact Hw|].
  { eapply Forall_impl; [|exact Hg]. intros o. apply Damage.good_answered. }
  rewrite Hrun in E3. injection E3 as <- <-. rewrite Ef in F3. apply ret_inj in F3. subst bs3.
  destruct (Hd t Ht) as (v & t1 & Hts & Hall).
  set (m := mk_env true 2147483648 (prefix ++ D) (en_sk e')).
  assert (Hsz : lenZ (prefix ++ D) < 2147483648) by (rewrite lenZ_app in *; unfold MAX_WIDE in *; lia).
  assert (Hwf : wf_env m) by (split; [exact B3|]; cbn [m e_base e_data]; unfold two63; lia).
  destruct (Hall true 2147483648 (en_sk e') ltac:(lia) ltac:(unfold two64; lia)) as (H2 & _ & H4). fold m in H2, H4.
  destruct v as [p l]. exists D, p, l. split; [exact Ef|].
  split; [exact (proj1 (accepted_exactly m Hwf (or_introl eq_refl) p l) H2)|].
  pose proof (root_gd m Hwf _ H2) as Hgd. destruct (gd_in m _ Hgd) as ((I1 & I2 & I3) & _).
  destruct (vstored_means m Hwf eq_refl t1 _ H4 I3) as (t' & Hm & Et). cbn [v_pos v_len m e_data e_sk] in Hm.
  split; [exists t'; exact Hm|]. intros t2 Hm2. rewrite (means_single AsFormat _ _ _ _ _ _ Hm2 Hm), Et. exact Hts.
Qed.

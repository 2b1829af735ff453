(** Reading an accepted document gives what MeaningSpec says its bytes mean. *)
From Coq Require Import ZifyBool ZifyNat ZifyN.
From Verif Require Import Prelude Varint Utf8 Float FloatProofs SharedKeys Decode Read Lib VarintProofs ReadSpec TextSpec TextProofs
  UntrustedSpec Repr Safety Navigate Untrusted PanicSpec Panics GrammarSpec Grammar MeaningSpec.
Ltac Zify.zify_post_hook ::= Z.div_mod_to_equations.
Local Open Scope Z_scope.

(* ---------- the meaning is unique ---------- *)

Section Unique.
Variables (w : view) (bs : list Z) (table : option (list (list Z))).

Lemma byte_fun p b b' : byte_at bs p b -> byte_at bs p b' -> b = b'.
Proof using. unfold byte_at. congruence. Qed.
Lemma number_fun p n x : number_at bs p n x -> forall y, number_at bs p n y -> x = y.
Proof using.
  induction 1 as [p|p n b x Hb Hx IH]; intros y Hy; inversion Hy as [|p' n' b' x' Hb' Hx']; subst; [reflexivity|].
  rewrite (byte_fun _ _ _ Hb Hb'), (IH _ Hx'). reflexivity.
Qed.
Lemma lies_fun p s s' : lies_at bs p s -> lies_at bs p s' -> lenZ s = lenZ s' -> s = s'.
Proof using.
  revert p s'. induction s as [|a s IH]; intros p [|a' s'] H H' Hl; try reflexivity; rewrite ?lenZ_cons, ?lenZ_nil in *;
    try pose proof (lenZ_nonneg s) as L1; try pose proof (lenZ_nonneg s') as L2; try lia.
  assert (a = a') as <-.
  { pose proof (H 0 ltac:(rewrite lenZ_cons; lia)) as A. pose proof (H' 0 ltac:(rewrite lenZ_cons; lia)) as B. rewrite A in B. cbn in B. congruence. }
  f_equal. apply (IH (p + 1)); [| |lia]; intros i Hi.
  - pose proof (H (i + 1) ltac:(rewrite lenZ_cons; lia)) as A. rewrite nthZ_cons_S in A by lia. replace (i + 1 - 1) with i in A by lia. rewrite <- A. f_equal. lia.
  - pose proof (H' (i + 1) ltac:(rewrite lenZ_cons; lia)) as A. rewrite nthZ_cons_S in A by lia. replace (i + 1 - 1) with i in A by lia. rewrite <- A. f_equal. lia.
Qed.
End Unique.


(** The first bytes in two rules are the same byte. *)
Ltac same_byte := repeat match goal with
  | H1 : byte_at ?l ?p ?b, H2 : byte_at ?l ?p ?c |- _ =>
      first [constr_eq b c; clear H2 | pose proof (byte_fun _ _ _ _ H1 H2); subst c]
  end.

Section Single.
Variables (w : view) (e : env) (table : option (list (list Z))).
Local Notation bs := (e_data e).

Lemma header_byte p l wide s f b : header bs p l wide s f -> byte_at bs p b -> 96 <= b < 128.
Proof using. intros (b0 & b1 & H0 & _ & R & _) Hb. rewrite (byte_fun _ _ _ _ Hb H0). exact R. Qed.
Lemma leads_fun p l wide t tl : leads_to bs p l wide t tl -> forall t' tl', leads_to bs p l wide t' tl' -> t = t' /\ tl = tl'.
Proof using.
  induction 1 as [p l wide b off b' H1 H2 H3 H4 H5 H6 H7|p l wide b off b' t tl H1 H2 H3 H4 H5 H6 H7 H8 IH]; intros t' tl' Ht';
    inversion Ht' as [? ? ? c off' c' K1 K2 K3 K4 K5 K6 K7|? ? ? c off' c' ? ? K1 K2 K3 K4 K5 K6 K7 K8]; subst;
    pose proof (distance_fun e _ _ _ _ H4 K4) as E; rewrite <- ?E in *; clear E; same_byte; try lia; auto.
Qed.
Lemma leads_byte p l wide t tl b : leads_to bs p l wide t tl -> byte_at bs p b -> 128 <= b.
Proof using. intros H Hb. inversion H; subst; same_byte; lia. Qed.
Lemma slot_fun wide q p l p' l' : slot bs wide q p l -> slot bs wide q p' l' -> p = p' /\ l = l'.
Proof using.
  intros [(-> & -> & b & Hb & Hl)|H] [(-> & -> & b' & Hb' & Hl')|H']; auto.
  - pose proof (leads_byte _ _ _ _ _ _ H' Hb). lia.
  - pose proof (leads_byte _ _ _ _ _ _ H Hb'). lia.
  - exact (leads_fun _ _ _ _ _ H _ _ H').
Qed.
Lemma contents_fun p l b s s' : contents bs p l b s -> contents bs p l b s' -> s = s'.
Proof using.
  intros [(A1 & A2 & A3)|(A1 & [(A2 & ->)|(n & A2 & A3)])] [(B1 & B2 & B3)|(B1 & [(B2 & ->)|(n' & B2 & B3)])]; try lia; try reflexivity.
  - eapply lies_fun; [exact A3|exact B3|lia].
  - exfalso. exact (prefix_not_cut e _ _ _ _ B2 A2).
  - exfalso. exact (prefix_not_cut e _ _ _ _ A2 B2).
  - destruct (prefix_fun e _ _ _ _ _ _ A2 B2) as [-> Hl]. eapply lies_fun; [exact A3|exact B3|exact Hl].
Qed.
Lemma text_fun s t t' : MeaningSpec.text w s t -> MeaningSpec.text w s t' -> t = t'.
Proof using. intros [(A & ->)|(_ & A & ->)] [(B & ->)|(_ & B & ->)]; try reflexivity; contradiction. Qed.
Lemma integer_fun n x z z' : integer w n x z -> integer w n x z' -> z = z'.
Proof using. unfold integer. destruct w; intros A B; try (destruct A, B); congruence. Qed.
Lemma float32_fun x z z' : float32 w x z -> float32 w x z' -> z = z'.
Proof using. unfold float32. destruct w; intros A B; try (destruct A, B); congruence. Qed.
Lemma key_fun p l k k' : MeaningSpec.key w bs table p l k -> MeaningSpec.key w bs table p l k' -> k = k'.
Proof using.
  intros H H'. destruct H as [p l b s k Hb Hr Hc Ht|p l b b1 tb k Hb Hr Hb1 Htb Hk|p l b Hw Hb Hr Hn];
    inversion H' as [? ? b' s' ? Hb' Hr' Hc' Ht'|? ? b' b1' tb' ? Hb' Hr' Hb1' Htb' Hk'|? ? b' Hw' Hb' Hr' Hn']; subst; same_byte; try lia; try reflexivity.
  - rewrite (contents_fun _ _ _ _ _ Hc Hc') in Ht. exact (text_fun _ _ _ Ht Ht').
  - congruence.
Qed.
Lemma key_known p l k : MeaningSpec.key w bs table p l k -> ~ key_unknown bs table p.
Proof using.
  intros H (c & c1 & C0 & C1 & C2 & C3). destruct H as [p l b s k Hb Hr Hc Ht|p l b b1 tb k Hb Hr Hb1 Htb Hk|p l b Hw Hb Hr Hn]; same_byte; try lia.
  rewrite Htb in C3. congruence.
Qed.

Lemma meaning_single :
  (forall p l t, means w bs table p l t -> forall t', means w bs table p l t' -> t = t') /\
  (forall wide q ts, elements w bs table wide q ts -> forall ts', elements w bs table wide q ts' -> lenZ ts = lenZ ts' -> ts = ts') /\
  (forall wide q n es, entries w bs table wide q n es -> forall es', entries w bs table wide q n es' -> es = es').
Proof using.
  apply meaning_ind.
  - intros p l b Hb Hr t' H. inversion H; subst; same_byte; try lia; try reflexivity; match goal with Hh : header _ _ _ _ _ _ |- _ => pose proof (header_byte _ _ _ _ _ _ Hh Hb); lia end.
  - intros p l b b1 Hb Hr Hb1 t' H. inversion H; subst; same_byte; try lia; try reflexivity; match goal with Hh : header _ _ _ _ _ _ |- _ => pose proof (header_byte _ _ _ _ _ _ Hh Hb); lia end.
  - intros p l b x z Hb Hr Hx Hz t' H. inversion H; subst; same_byte; try lia; try reflexivity; try match goal with Hh : header _ _ _ _ _ _ |- _ => pose proof (header_byte _ _ _ _ _ _ Hh Hb); lia end.
    match goal with H1 : number_at _ _ _ ?y, H2 : integer _ _ ?y _ |- _ => rewrite <- (number_fun _ _ _ _ Hx _ H1) in H2; rewrite (integer_fun _ _ _ _ Hz H2); reflexivity end.
  - intros p l b x Hb Hr Hx t' H. inversion H; subst; same_byte; try lia; try reflexivity; try match goal with Hh : header _ _ _ _ _ _ |- _ => pose proof (header_byte _ _ _ _ _ _ Hh Hb); lia end.
    match goal with H1 : number_at _ _ _ ?y |- _ = TInt ?y => rewrite (number_fun _ _ _ _ Hx _ H1); reflexivity end.
  - intros p l b x z Hb Hr Hl Hx Hz t' H. inversion H; subst; same_byte; try lia; try reflexivity; try match goal with Hh : header _ _ _ _ _ _ |- _ => pose proof (header_byte _ _ _ _ _ _ Hh Hb); lia end.
    match goal with H1 : number_at _ _ _ ?y, H2 : float32 _ ?y _ |- _ => rewrite <- (number_fun _ _ _ _ Hx _ H1) in H2; rewrite (float32_fun _ _ _ Hz H2); reflexivity end.
  - intros p l b x Hb Hr Hl Hx t' H. inversion H; subst; same_byte; try lia; try reflexivity; try match goal with Hh : header _ _ _ _ _ _ |- _ => pose proof (header_byte _ _ _ _ _ _ Hh Hb); lia end.
    match goal with H1 : number_at _ _ _ ?y |- _ = TF64 (f64_of_f32 ?y) => rewrite (number_fun _ _ _ _ Hx _ H1); reflexivity end.
  - intros p l b x Hb Hr Hl Hx t' H. inversion H; subst; same_byte; try lia; try reflexivity; try match goal with Hh : header _ _ _ _ _ _ |- _ => pose proof (header_byte _ _ _ _ _ _ Hh Hb); lia end.
    match goal with H1 : number_at _ _ _ ?y |- _ = TF64 ?y => rewrite (number_fun _ _ _ _ Hx _ H1); reflexivity end.
  - intros p l b s t Hb Hr Hs Ht t' H. inversion H; subst; same_byte; try lia; try reflexivity; try match goal with Hh : header _ _ _ _ _ _ |- _ => pose proof (header_byte _ _ _ _ _ _ Hh Hb); lia end.
    match goal with H1 : contents _ _ _ _ ?y, H2 : MeaningSpec.text _ ?y _ |- _ => rewrite <- (contents_fun _ _ _ _ _ Hs H1) in H2; rewrite (text_fun _ _ _ Ht H2); reflexivity end.
  - intros p l b s Hb Hr Hs t' H. inversion H; subst; same_byte; try lia; try reflexivity; try match goal with Hh : header _ _ _ _ _ _ |- _ => pose proof (header_byte _ _ _ _ _ _ Hh Hb); lia end.
    match goal with H1 : contents _ _ _ _ ?y |- _ = TData ?y => rewrite (contents_fun _ _ _ _ _ Hs H1); reflexivity end.
  - intros p l b wide first ts Hb Hr Hh He IH t' H. pose proof (header_byte _ _ _ _ _ _ Hh Hb). inversion H; subst; same_byte; try lia.
    match goal with H1 : header _ _ _ _ (lenZ ?y) _, H2 : elements _ _ _ _ _ ?y |- _ => destruct (header_fun e _ _ _ _ _ _ _ _ Hh H1) as (<- & E & <-); rewrite (IH _ H2 E); reflexivity end.
  - intros p l b wide n first es Hb Hr Hh He IH t' H. pose proof (header_byte _ _ _ _ _ _ Hh Hb). inversion H; subst; same_byte; try lia.
    match goal with H1 : header _ _ _ _ (2 * ?m) _, H2 : entries _ _ _ _ _ ?m ?y |- _ => destruct (header_fun e _ _ _ _ _ _ _ _ Hh H1) as (<- & E & <-); assert (m = n) as -> by lia; rewrite (IH _ H2); reflexivity end.
  - intros wide q [|t ts] _ Hl; [reflexivity|]. rewrite lenZ_cons, lenZ_nil in Hl. pose proof (lenZ_nonneg ts). lia.
  - intros wide q p l t ts Hs Ht IHt Hts IHts ts' H Hl. inversion H as [|? ? p' l' t' ts2 Hs' Ht' Hts']; subst; [rewrite lenZ_cons, lenZ_nil in Hl; pose proof (lenZ_nonneg ts); lia|].
    destruct (slot_fun _ _ _ _ _ _ Hs Hs') as (<- & <-). rewrite (IHt _ Ht'). rewrite !lenZ_cons in Hl. rewrite (IHts _ Hts') by lia. reflexivity.
  - intros wide q es' H. inversion H; try reflexivity; lia.
  - intros wide q n kp kl k p l t es Hn width Hk Hkk Hs Ht IHt Hes IHes es' H.
    inversion H as [|? ? ? kp' kl' k' p' l' t' es2 Hn' width' Hk' Hkk' Hs' Ht' Hes'|? ? ? kp' kl' Hw Hn' Hk' Hu]; try clear Hw; subst; [lia| |].
    + destruct (slot_fun _ _ _ _ _ _ Hk Hk') as (<- & <-). destruct (slot_fun _ _ _ _ _ _ Hs Hs') as (<- & <-).
      rewrite (IHt _ Ht'), (IHes _ Hes'), (key_fun _ _ _ _ Hkk Hkk'). reflexivity.
    + destruct (slot_fun _ _ _ _ _ _ Hk Hk') as (<- & <-). exfalso. exact (key_known _ _ _ Hkk Hu).
  - intros wide q n kp kl Hw Hn Hk Hu es' H. clear Hw.
    inversion H as [|? ? ? kp' kl' k' p' l' t' es2 Hn' width' Hk' Hkk' Hs' Ht' Hes'|? ? ? kp' kl' Hw' Hn' Hk' Hu']; try clear Hw'; subst; [lia| |reflexivity].
    destruct (slot_fun _ _ _ _ _ _ Hk Hk') as (<- & <-). exfalso. exact (key_known _ _ _ Hkk' Hu).
Qed.
End Single.

Lemma short_signed x : 0 <= x < 4096 -> short_of_12bit x = signed 12 x.
Proof.
  intros Hx. change 4096 with (Z.of_nat 4096) in Hx. apply Z.eqb_eq. revert x Hx.
  apply (range_sweep (fun x => short_of_12bit x =? signed 12 x) 4096). vm_compute. reflexivity.
Qed.
Lemma wrap_signed x : 0 <= x < 2 ^ 64 -> wrap_i64 x = signed 64 x.
Proof. intros Hx. unfold wrap_i64, signed, two63, two64. change (2 ^ (64 - 1)) with 9223372036854775808. change (2 ^ 64) with 18446744073709551616 in *. destruct (x <? _) eqn:E; lia. Qed.
Lemma wrap_same x n : n < 8 -> 0 <= n -> 0 <= x < 2 ^ (8 * n) -> wrap_i64 x = x.
Proof.
  intros Hn H0 Hx. assert (2 ^ (8 * n) <= 2 ^ 56) by (apply Z.pow_le_mono_r; lia). change (2 ^ 56) with 72057594037927936 in *. unfold wrap_i64, two63, two64. lia.
Qed.

Section Meaning.
Variable e : env.
Hypothesis Hwf : wf_env e.
Hypothesis Hck : e_dbg e = true \/ modest e /\ no_long_run (e_data e).
Local Notation bs := (e_data e).
Local Notation M := (means AsLibrary (e_data e) (e_sk e)).

(* ---------- numbers ---------- *)

Lemma number_in n : forall p, 0 <= p -> p + Z.of_nat n <= lenZ bs -> number_at bs p n (le_val (subl bs p (Z.of_nat n))).
Proof using.
  induction n as [|n IH]; intros p H0 H1.
  - rewrite subl_0 by lia. constructor.
  - destruct (nthZ_in bs p) as (b & Hb); [lia|]. rewrite (subl_cons bs p (Z.of_nat (S n)) b) by (assumption || lia).
    cbn [le_val]. constructor; [exact Hb|]. replace (Z.of_nat (S n) - 1) with (Z.of_nat n) by lia. apply IH; lia.
Qed.
Lemma number_iff p n s x : 0 <= p -> 0 < Z.of_nat n -> raw_bytes e p (Z.of_nat n) = Ret s -> number_at bs p n x <-> x = le_val s.
Proof using.
  intros H0 Hn Hs. unfold raw_bytes in Hs. destruct (Z.of_nat n <=? 0) eqn:E0; [lia|]. destruct (_ && _) eqn:E; [|discriminate].
  apply ret_inj in Hs. subst s. pose proof (number_in n p ltac:(lia) ltac:(lia)) as H. split.
  - intros Hx. exact (number_fun _ _ _ _ Hx _ H).
  - intros ->. exact H.
Qed.

(* ---------- types ---------- *)

Definition type_in (b : Z) : vtype :=
  if b <? 16 then TyShort else if b <? 24 then TyInt else if b <? 32 then TyUnsignedInt
  else if b <? 36 then TyFloat else if b <? 40 then TyDouble32 else if b <? 48 then TyDouble64
  else if b <? 64 then (if b =? 52 then TyFalse else if b =? 56 then TyTrue else if b =? 60 then TyUndefined else TyNull)
  else if b <? 80 then TyString else if b <? 96 then TyData else if b <? 112 then TyArray else if b <? 128 then TyDict else TyPointer.
Lemma type_byte b : is_byte b -> type_of_byte b = type_in b.
Proof using.
  intros Hb. assert (H : vtype_eqb (type_of_byte b) (type_in b) = true).
  { revert b Hb. apply (byte_sweep (fun b => vtype_eqb (type_of_byte b) (type_in b))). vm_compute. reflexivity. }
  destruct (type_of_byte b), (type_in b); cbn in H; congruence.
Qed.
Lemma type_here v b : gd e v -> byte_at bs (v_pos v) b -> value_type e v = Ret (type_in b).
Proof using Hwf.
  intros Hg Hb. destruct (gd_in e v Hg) as (Hin & Hl). rewrite (type_at e v b Hin ltac:(lia) Hb). f_equal.
  apply type_byte. exact (proj1 (at_byte e Hwf _ _ Hb)).
Qed.

(* ---------- integers ---------- *)

Lemma payload_room v b : gd e v -> byte_at bs (v_pos v) b -> 16 <= b < 32 -> v_pos v + 2 + b mod 8 <= lenZ bs.
Proof using Hwf.
  intros Hg Hb Hr. pose proof (type_here v b Hg Hb) as Hty. pose proof (at_byte e Hwf _ _ Hb) as (Hby & _). destruct (gd_in e v Hg) as (Hin & Hl).
  destruct Hg as (d & Hg & Hd). destruct (good_size e v d Hg) as (n & Hn & Hnd). unfold required_size in Hn. rewrite Hty in Hn. cbn [bind] in Hn.
  assert (n = 2 + b mod 8).
  { assert (Hb0 : vbyte e v 0 = Ret b) by (apply (vbyte_at e v b Hin); [lia|exact Hb]). rewrite Hb0 in Hn. cbn [bind] in Hn. rewrite land_7 in Hn.
    unfold type_in in Hn. destruct (b <? 16) eqn:E1; [lia|]. destruct (b <? 24) eqn:E2; [apply ret_inj in Hn; lia|]. destruct (b <? 32) eqn:E3; [apply ret_inj in Hn; lia|lia]. }
  lia.
Qed.
Lemma int_read v b : gd e v -> byte_at bs (v_pos v) b -> 16 <= b < 32 ->
  exists x, number_at bs (v_pos v + 1) (Z.to_nat (1 + b mod 8)) x /\ 0 <= x < 2 ^ (8 * (1 + b mod 8)) /\ to_int e v = Ret (wrap_i64 x).
Proof using Hwf.
  intros Hg Hb Hr. pose proof (payload_room v b Hg Hb Hr) as Hroom. pose proof (type_here v b Hg Hb) as Hty. destruct (gd_in e v Hg) as (Hin & Hl).
  assert (Hb0 : vbyte e v 0 = Ret b) by (apply (vbyte_at e v b Hin); [lia|exact Hb]).
  exists (le_val (subl bs (v_pos v + 1) (1 + b mod 8))). destruct Hin as (I1 & I2 & I3). split; [|split].
  - replace (1 + b mod 8) with (Z.of_nat (Z.to_nat (1 + b mod 8))) at 2 by lia. apply number_in; lia.
  - destruct Hwf as (Hby & _). pose proof (le_val_bound (subl bs (v_pos v + 1) (1 + b mod 8)) (subl_Forall _ _ _ _ Hby)) as H.
    rewrite subl_len in H by lia. replace (2 ^ (8 * (1 + b mod 8))) with (256 ^ (1 + b mod 8)); [exact H|].
    change 256 with (2 ^ 8). rewrite <- Z.pow_mul_r by lia. reflexivity.
  - assert (Hi : to_int e v = int_payload e v).
    { unfold to_int. rewrite Hty. cbn [bind]. unfold type_in. destruct (b <? 16) eqn:E1; [lia|]. destruct (b <? 24); [reflexivity|]. destruct (b <? 32) eqn:E3; [reflexivity|lia]. }
    rewrite Hi. unfold int_payload. rewrite Hb0. cbn [bind]. destruct (v_len v <? 1) eqn:E; [lia|]. rewrite land_7.
    rewrite raw_bytes_ok by (assumption || lia). cbn [bind]. replace (b mod 8 + 1) with (1 + b mod 8) by lia. reflexivity.
Qed.

(* ---------- floats ---------- *)

Lemma float_read v n m : gd e v -> Z.of_nat n + 2 <= v_len v -> 0 < Z.of_nat n -> m = Z.of_nat n + 2 ->
  exists x, number_at bs (v_pos v + 2) n x /\ 0 <= x < 256 ^ Z.of_nat n /\ (s <- vslice v 2 m ;; slice_content e s) = Ret (subl bs (v_pos v + 2) (Z.of_nat n)) /\
    x = le_val (subl bs (v_pos v + 2) (Z.of_nat n)).
Proof using Hwf.
  intros Hg Hl Hn ->. destruct (gd_in e v Hg) as ((I1 & I2 & I3) & _). eexists. split; [apply number_in; lia|]. split.
  - destruct Hwf as (Hby & _). pose proof (le_val_bound (subl (e_data e) (v_pos v + 2) (Z.of_nat n)) (subl_Forall _ _ _ _ Hby)) as H. rewrite subl_len in H by lia. exact H.
  - split; [|reflexivity]. unfold vslice. destruct (_ && _) eqn:E; [|lia]. cbn [bind]. unfold slice_content. cbn [v_pos v_len].
    replace (Z.of_nat n + 2 - 2) with (Z.of_nat n) by lia. apply raw_bytes_ok; assumption || lia.
Qed.

(* ---------- texts ---------- *)

Lemma lies_subl p n : 0 <= p -> 0 <= n -> p + n <= lenZ bs -> lies_at bs p (subl bs p n).
Proof using. intros H0 Hn H1 i Hi. rewrite subl_len in Hi by lia. rewrite nthZ_subl by lia. reflexivity. Qed.
Lemma contents_read v b : gd e v -> byte_at bs (v_pos v) b -> 64 <= b < 96 ->
  exists s, contents bs (v_pos v) (v_len v) b s /\ (d <- get_data e v ;; slice_content e d) = Ret s.
Proof using Hwf Hck.
  intros Hg Hb Hr. pose proof (type_here v b Hg Hb) as Hty. pose proof (at_byte e Hwf _ _ Hb) as (Hby & _). destruct (gd_in e v Hg) as (Hin & Hl).
  assert (Hret : exists s, get_data e v = Ret s).
  { destruct Hg as (d & Hg & Hd). destruct (good_size e v d Hg) as (n & Hn & _). unfold required_size in Hn. rewrite Hty in Hn. cbn [bind] in Hn.
    assert (Ht : type_in b = TyString \/ type_in b = TyData).
    { unfold type_in. destruct (b <? 80) eqn:E; [left|right]; repeat match goal with |- context[b <? ?n] => destruct (b <? n) eqn:?; try lia end; reflexivity. }
    destruct Ht as [Ht|Ht]; rewrite Ht in Hn; binv Hn; eauto. }
  destruct Hret as (sl & Hs). rewrite Hs. cbn [bind]. revert Hs. unfold get_data. destruct (v_len v <? 2) eqn:E2; [lia|].
  rewrite (proj2 (vbyte_at e v b Hin ltac:(lia)) Hb). cbn [bind]. cbv zeta. rewrite land_15. destruct Hin as (I1 & I2 & I3). unfold contents.
  assert (Hsl : forall a n, 1 <= a -> 0 <= n -> a + n <= v_len v -> lies_at bs (v_pos v + a) (subl bs (v_pos v + a) n) /\ lenZ (subl bs (v_pos v + a) n) = n /\
     slice_content e (V (v_pos v + a) n) = Ret (subl bs (v_pos v + a) n)).
  { intros a n Ha Hn Hle. split; [apply lies_subl; lia|]. split; [apply subl_len; lia|]. unfold slice_content. cbn [v_pos v_len].
    destruct (Z.eq_dec n 0) as [->|Hn0]; [rewrite subl_0 by lia; reflexivity|]. apply raw_bytes_ok; assumption || lia. }
  destruct (b mod 16 =? 15) eqn:E15.
  - pose proof (varint_prefix e Hwf Hck v 1 (conj I1 (conj I2 I3)) ltac:(lia)) as HV. destruct (varint_at e v 1) as [[r x]| | |]; try contradiction; cbn [bind]; [|discriminate].
    destruct HV as [(-> & -> & Hc)|(Hr1 & Hp)].
    + cbn [Z.eqb]. intros Hs. apply ret_inj in Hs. subst sl. exists []. split; [right; split; [lia|]; left; auto|reflexivity].
    + destruct (r =? 0) eqn:Er; [lia|]. pose proof (prefix_range e Hwf _ _ _ _ Hp) as (P1 & P2 & P3). intros Hs. binv Hs.
      apply vslice_inv in Hs as (Hle & ->). unfold usize_add in Hx.
      assert (x0 = 1 + r + x).
      { destruct (1 + r + x <? two64) eqn:Eu; [apply ret_inj in Hx; congruence|]. destruct (e_dbg e); [discriminate|]. apply ret_inj in Hx. unfold wrap_u64, two64 in *. lia. }
      subst x0. replace (1 + r + x - (1 + r)) with x by lia. destruct (Hsl (1 + r) x) as (L1 & L2 & L3); [lia|lia|lia|].
      eexists. split; [|exact L3]. right. split; [lia|]. right. exists r. rewrite L2. split; [exact Hp|]. replace (v_pos v + 1 + r) with (v_pos v + (1 + r)) by lia. exact L1.
  - intros Hs. apply vslice_inv in Hs as (Hle & ->). replace (1 + b mod 16 - 1) with (b mod 16) by lia. destruct (Hsl 1 (b mod 16)) as (L1 & L2 & L3); [lia|lia|lia|].
    eexists. split; [|exact L3]. left. split; [lia|]. split; [exact L2|exact L1].
Qed.
Lemma text_str s t : MeaningSpec.text AsLibrary s t <-> t = if utf8_valid s then s else [].
Proof using.
  unfold MeaningSpec.text. pose proof (valid_iff s) as Hv. destruct (utf8_valid s); split.
  - intros [[_ H]|(_ & H & _)]; [exact H|]. exfalso. apply H, Hv. reflexivity.
  - intros ->. left. split; [apply Hv|]; reflexivity.
  - intros [[H _]|(_ & _ & H)]; [|exact H]. apply Hv in H. discriminate.
  - intros ->. right. split; [reflexivity|]. split; [|reflexivity]. intros H. apply Hv in H. discriminate.
Qed.
Lemma str_read v b : gd e v -> byte_at bs (v_pos v) b -> 64 <= b < 80 ->
  forall t, to_str e v = Ret t <-> exists s, contents bs (v_pos v) (v_len v) b s /\ MeaningSpec.text AsLibrary s t.
Proof using Hwf Hck.
  intros Hg Hb Hr t. destruct (contents_read v b Hg Hb ltac:(lia)) as (s & Hs & Hd). pose proof (type_here v b Hg Hb) as Hty.
  assert (Ht : type_in b = TyString).
  { unfold type_in. repeat match goal with |- context[b <? ?n] => destruct (b <? n) eqn:?; try lia end; reflexivity. }
  rewrite Ht in Hty. apply bind_inv in Hd as (sl & E1 & E2).
  assert (Hto : to_str e v = Ret (if utf8_valid s then s else [])) by (unfold to_str; rewrite Hty; cbn [bind]; rewrite E1; cbn [bind]; rewrite E2; reflexivity).
  rewrite Hto. split.
  - intros H. apply ret_inj in H. subst t. exists s. split; [exact Hs|]. apply text_str. reflexivity.
  - intros (s' & Hs' & Ht'). rewrite (contents_fun _ _ _ _ _ _ Hs' Hs) in Ht'. apply text_str in Ht'. subst t. reflexivity.
Qed.
Lemma data_read v b : gd e v -> byte_at bs (v_pos v) b -> 80 <= b < 96 ->
  forall s, to_data e v = Ret s <-> contents bs (v_pos v) (v_len v) b s.
Proof using Hwf Hck.
  intros Hg Hb Hr t. destruct (contents_read v b Hg Hb ltac:(lia)) as (s & Hs & Hd). pose proof (type_here v b Hg Hb) as Hty.
  assert (Ht : type_in b = TyData).
  { unfold type_in. repeat match goal with |- context[b <? ?n] => destruct (b <? n) eqn:?; try lia end; reflexivity. }
  rewrite Ht in Hty. unfold to_data. rewrite Hty. cbn [bind]. rewrite Hd. split.
  - intros H. apply ret_inj in H. subst t. exact Hs.
  - intros H. rewrite (contents_fun _ _ _ _ _ _ H Hs). reflexivity.
Qed.

(* ---------- values without parts ---------- *)

Lemma settle (m : outcome tree) T p l : m = Ret T -> M p l T -> forall t, m = Ret t <-> M p l t.
Proof using.
  intros -> H t. split; [intros Ht; apply ret_inj in Ht; subst t; exact H|]. intros Ht. f_equal.
  exact (proj1 (meaning_single AsLibrary e (e_sk e)) _ _ _ H _ Ht).
Qed.
Lemma scalar_iff f v b : gd e v -> byte_at bs (v_pos v) b -> b < 96 -> forall t, read_tree (S f) e v = Ret t <-> M (v_pos v) (v_len v) t.
Proof using Hwf Hck.
  intros Hg Hb H96. pose proof (type_here v b Hg Hb) as Hty. destruct (gd_in e v Hg) as (Hin & Hl). pose proof (at_byte e Hwf _ _ Hb) as (Hby & _).
  unfold is_byte in Hby. cbn [read_tree]. rewrite Hty. cbn [bind].
  destruct (Z_lt_dec b 16) as [C|C].
  { assert (E : type_in b = TyShort) by (unfold type_in; destruct (b <? 16) eqn:?; [reflexivity|lia]). rewrite E. 
    destruct (at_in e Hwf (v_pos v + 1)) as (b1 & Hb1 & Hby1); [destruct Hin as (I1 & I2 & I3); lia|]. unfold is_byte in Hby1.
    pose proof (short_at e v b b1 ltac:(lia) Hb Hb1 ltac:(unfold is_byte; lia)) as Hs. rewrite Z.mod_small in Hs by lia.
    apply (settle _ (TInt (signed 12 (b * 256 + b1)))); [|econstructor 2; eassumption || lia].
    unfold to_int. rewrite Hty, E. cbn [bind]. rewrite Hs. cbn [bind]. rewrite short_signed by lia. reflexivity. }
  destruct (Z_lt_dec b 24) as [C2|C2].
  { assert (E : type_in b = TyInt) by (unfold type_in; repeat match goal with |- context[b <? ?n] => destruct (b <? n) eqn:?; try lia end; reflexivity). rewrite E.
    destruct (int_read v b Hg Hb ltac:(lia)) as (x & Hx & Hr & Hi). assert (En : 1 + b mod 8 = b - 15) by lia. rewrite En in *. rewrite Hi. cbn [bind].
    apply (settle _ (TInt (wrap_i64 x))); [reflexivity|]. eapply means_int; [exact Hb|lia|exact Hx|]. unfold integer.
    destruct (b - 15 =? 8) eqn:E8; [assert (b - 15 = 8) as E8' by lia; rewrite E8' in Hr; apply wrap_signed; exact Hr|]. apply (wrap_same x (b - 15)); lia || exact Hr. }
  destruct (Z_lt_dec b 32) as [C3|C3].
  { assert (E : type_in b = TyUnsignedInt) by (unfold type_in; repeat match goal with |- context[b <? ?n] => destruct (b <? n) eqn:?; try lia end; reflexivity). rewrite E.
    destruct (int_read v b Hg Hb ltac:(lia)) as (x & Hx & Hr & Hi). assert (En : 1 + b mod 8 = b - 23) by lia. rewrite En in *. unfold to_unsigned_int. rewrite Hi. cbn [bind].
    apply (settle _ (TInt x)); [|eapply means_unsigned; [exact Hb|lia|exact Hx]]. f_equal. f_equal.
    assert (2 ^ (8 * (b - 23)) <= 2 ^ 64) by (apply Z.pow_le_mono_r; lia). change (2 ^ 64) with 18446744073709551616 in *. unfold wrap_u64, wrap_i64, two63, two64. lia. }
  destruct (Z_lt_dec b 48) as [C4|C4].
  { set (m := if b <? 40 then 6 else 10).
    destruct (Z_lt_dec (v_len v) m) as [Hs|Hs].
    { split.
      - intros H. exfalso. revert H. unfold to_float, to_double. rewrite Hty. cbn [bind]. unfold m in Hs. unfold type_in. destruct (b <? 40) eqn:E40;
        repeat match goal with |- context[b <? ?n] => destruct (b <? n) eqn:?; try lia end; cbn [float_payload]; unfold vslice;
        (destruct (_ && _) eqn:Ev; [lia|]); discriminate.
      - intros H. exfalso. unfold m in Hs. inversion H; subst; same_byte; try lia;
          try match goal with Hh : header _ _ _ _ _ _ |- _ => pose proof (header_byte e _ _ _ _ _ _ Hh Hb); lia end;
          destruct (b <? 40) eqn:E40; lia. }
    destruct (Z_lt_dec b 40) as [C5|C5].
    - assert (m = 6) as Em by (unfold m; destruct (b <? 40) eqn:?; lia). rewrite Em in Hs. clear Em.
      destruct (float_read v 4 6 Hg ltac:(lia) ltac:(lia) ltac:(lia)) as (x & Hx & Hxr & Hsl & Ex). change (256 ^ Z.of_nat 4) with two32 in Hxr.
      assert (Hp : forall ty, ty = TyFloat \/ ty = TyDouble32 -> float_payload e v ty = Ret (f64_of_f32 x)).
      { intros ty Ht. apply bind_inv in Hsl as (sl & S1 & S2). destruct Ht as [-> | ->]; cbn [float_payload]; rewrite S1; cbn [bind]; rewrite S2; cbn [bind]; rewrite <- Ex; reflexivity. }
      destruct (Z_lt_dec b 36) as [C6|C6].
      + assert (E : type_in b = TyFloat) by (unfold type_in; repeat match goal with |- context[b <? ?n] => destruct (b <? n) eqn:?; try lia end; reflexivity). rewrite E.
        apply (settle _ (TF32 (quiet32 x))); [|eapply means_float; [exact Hb|lia|lia|exact Hx|reflexivity]].
        unfold to_float, to_double. rewrite Hty, E. cbn [bind]. rewrite Hp by tauto. cbn [bind]. rewrite f32_via_f64 by exact Hxr. reflexivity.
      + assert (E : type_in b = TyDouble32) by (unfold type_in; repeat match goal with |- context[b <? ?n] => destruct (b <? n) eqn:?; try lia end; reflexivity). rewrite E.
        apply (settle _ (TF64 (f64_of_f32 x))); [|eapply means_double_short; [exact Hb|lia|lia|exact Hx]].
        unfold to_double. rewrite Hty, E. cbn [bind]. rewrite Hp by tauto. reflexivity.
    - assert (m = 10) as Em by (unfold m; destruct (b <? 40) eqn:?; lia). rewrite Em in Hs. clear Em.
      destruct (float_read v 8 10 Hg ltac:(lia) ltac:(lia) ltac:(lia)) as (x & Hx & Hxr & Hsl & Ex).
      assert (E : type_in b = TyDouble64) by (unfold type_in; repeat match goal with |- context[b <? ?n] => destruct (b <? n) eqn:?; try lia end; reflexivity). rewrite E.
      apply (settle _ (TF64 x)); [|eapply means_double; [exact Hb|lia|lia|exact Hx]].
      unfold to_double. rewrite Hty, E. cbn [bind float_payload]. apply bind_inv in Hsl as (sl & S1 & S2). rewrite S1. cbn [bind]. rewrite S2. cbn [bind]. rewrite <- Ex. reflexivity. }
  destruct (Z_lt_dec b 64) as [C7|C7].
  { apply (settle _ (if b =? 52 then TBool false else if b =? 56 then TBool true else if b =? 60 then TUndef else TNull)); [|apply means_special; [exact Hb|lia]].
    unfold to_bool. rewrite Hty. cbn [bind]. unfold type_in. repeat match goal with |- context[b <? ?n] => destruct (b <? n) eqn:?; try lia end.
    destruct (b =? 52); [reflexivity|]. destruct (b =? 56); [reflexivity|]. destruct (b =? 60); reflexivity. }
  destruct (Z_lt_dec b 80) as [C8|C8].
  - assert (E : type_in b = TyString) by (unfold type_in; repeat match goal with |- context[b <? ?n] => destruct (b <? n) eqn:?; try lia end; reflexivity). rewrite E.
    destruct (contents_read v b Hg Hb ltac:(lia)) as (s & Hs & _). pose proof (str_read v b Hg Hb ltac:(lia) (if utf8_valid s then s else [])) as H.
    assert (Ht : MeaningSpec.text AsLibrary s (if utf8_valid s then s else [])) by (apply text_str; reflexivity).
    apply (settle _ (TStr (if utf8_valid s then s else []))); [|eapply means_string; [exact Hb|lia|exact Hs|exact Ht]].
    rewrite (proj2 H); [reflexivity|eauto].
  - assert (E : type_in b = TyData) by (unfold type_in; repeat match goal with |- context[b <? ?n] => destruct (b <? n) eqn:?; try lia end; reflexivity). rewrite E.
    destruct (contents_read v b Hg Hb ltac:(lia)) as (s & Hs & _). 
    apply (settle _ (TData s)); [|eapply means_data; [exact Hb|lia|exact Hs]].
    rewrite (proj2 (data_read v b Hg Hb ltac:(lia) s) Hs). reflexivity.
Qed.

(* ---------- slots and keys ---------- *)

Lemma slot_read q wide x : good_slot e (V q (width_of wide)) wide -> resolve e (V q (width_of wide)) wide = Ret x -> slot bs wide q (v_pos x) (v_len x).
Proof using Hwf.
  intros Hs Hx. unfold slot. inversion Hs as [s0 w0 Hg Hw|s0 w0 t Hin Hw Hty Hd Hg]; subst.
  - left. pose proof (good_in e _ _ Hg) as (Hin & Hl & He).
    destruct (at_in e Hwf q) as (b & Hb & Hby); [destruct Hin as (I1 & I2 & I3); cbn [v_pos v_len] in *; lia|].
    assert (Hty : value_type e (V q (width_of wide)) = Ret (type_of_byte b)) by (apply (type_at e _ b Hin); [lia|exact Hb]).
    assert (Hnp : type_of_byte b <> TyPointer).
    { destruct (gd_type e (V q (width_of wide))) as (ty & Hty' & Hnp); [eexists; split; [exact Hg|destruct Hin as (I1 & I2 & I3); cbn [v_pos v_len] in *; lia]|].
      rewrite Hty in Hty'. apply ret_inj in Hty'. congruence. }
    unfold resolve in Hx. rewrite Hty in Hx. cbn [bind] in Hx. destruct (vtype_eqb (type_of_byte b) TyPointer) eqn:E.
    { exfalso. apply Hnp. destruct (type_of_byte b); cbn in E; congruence. }
    apply ret_inj in Hx. subst x. cbn [v_pos v_len]. split; [reflexivity|]. split; [destruct wide; reflexivity|]. exists b. split; [exact Hb|].
    rewrite pointer_byte in E by exact Hby. lia.
  - right. unfold resolve in Hx. rewrite Hty in Hx. cbn [bind vtype_eqb] in Hx. rewrite (deref_agree _ _ _ _ _ Hd) in Hx. apply ret_inj in Hx. subst x.
    assert (Hw2 : 2 <= width_of wide) by (destruct wide; cbn; lia).
    destruct (at_in e Hwf q) as (b & Hb & Hby); [destruct Hin as (I1 & I2 & I3); cbn [v_pos v_len] in *; lia|].
    assert (128 <= b).
    { rewrite (type_at e _ b Hin) in Hty by (cbn [v_len]; lia || exact Hb). apply ret_inj in Hty. pose proof (pointer_byte b Hby) as P. rewrite Hty in P. cbn in P. lia. }
    pose proof (proj1 (leads e Hwf (fuel_of e) (V q (width_of wide)) wide t b Hin ltac:(cbn [v_len]; lia) (fuel_enough e _ Hin) Hb H) Hd) as L.
    cbn [v_pos v_len] in L. replace (if wide then 4 else 2) with (width_of wide) by (destruct wide; reflexivity). exact L.
Qed.
Lemma key_read kv : gd e kv -> exists o, key_text e (e_sk e) kv = Ret o /\
  match o with Some k => MeaningSpec.key AsLibrary bs (e_sk e) (v_pos kv) (v_len kv) k | None => key_unknown bs (e_sk e) (v_pos kv) end.
Proof using Hwf Hck.
  intros Hg. destruct (gd_in e kv Hg) as (Hin & Hl). pose proof Hin as (I1 & I2 & I3).
  destruct (at_in e Hwf (v_pos kv)) as (b & Hb & Hby); [lia|]. destruct (at_in e Hwf (v_pos kv + 1)) as (b1 & Hb1 & Hby1); [lia|].
  pose proof (type_here kv b Hg Hb) as Hty. destruct (gd_type e kv Hg) as (ty & Hty' & Hnp). rewrite Hty in Hty'. apply ret_inj in Hty'. unfold is_byte in Hby.
  unfold key_text. rewrite Hty. cbn [bind]. destruct (Z_lt_dec b 16) as [C|C].
  - assert (E : type_in b = TyShort) by (unfold type_in; destruct (b <? 16) eqn:?; [reflexivity|lia]). rewrite E. cbn [vtype_eqb].
    assert (Hu : forall tb, e_sk e = Some tb -> to_unsigned_short e kv = Ret (b * 256 + b1)).
    { intros tb Htb. unfold to_unsigned_short. rewrite Hty, E. cbn [bind]. rewrite (short_at e kv b b1) by (assumption || lia). rewrite Z.mod_small by lia. reflexivity. }
    destruct (e_sk e) as [tb|] eqn:Etb.
    + rewrite (Hu tb eq_refl). cbn [bind]. eexists. split; [reflexivity|]. unfold sk_decode. destruct (nthZ tb (b * 256 + b1)) as [k|] eqn:Ek.
      * eapply key_shared; try eassumption. reflexivity.
      * exists b, b1. split; [exact Hb|]. split; [lia|]. split; [exact Hb1|exact Ek].
    + eexists. split; [reflexivity|]. exists b, b1. split; [exact Hb|]. split; [lia|]. split; [exact Hb1|exact I].
  - assert (E : vtype_eqb (type_in b) TyShort = false).
    { unfold type_in. repeat match goal with |- context[b <? ?n] => destruct (b <? n) eqn:?; try lia end; try reflexivity. destruct (b =? 52), (b =? 56), (b =? 60); reflexivity. }
    rewrite E. destruct (Z_le_dec 64 b) as [C1|C1]; [destruct (Z_lt_dec b 80) as [C2|C2]|].
    + destruct (contents_read kv b Hg Hb ltac:(lia)) as (s & Hs & _). assert (Ht : MeaningSpec.text AsLibrary s (if utf8_valid s then s else [])) by (apply text_str; reflexivity).
      rewrite (proj2 (str_read kv b Hg Hb ltac:(lia) _) (ex_intro _ s (conj Hs Ht))). cbn [bind]. eexists. split; [reflexivity|]. eapply key_string; [exact Hb|lia|exact Hs|exact Ht].
    + assert (b < 128).
      { subst ty. unfold type_in in Hnp. repeat match type of Hnp with context[b <? ?n] => destruct (b <? n) eqn:?; try lia end; congruence. }
      assert (Hto : to_str e kv = Ret []).
      { unfold to_str. rewrite Hty. cbn [bind]. unfold type_in. repeat match goal with |- context[b <? ?n] => destruct (b <? n) eqn:?; try lia end; reflexivity. }
      rewrite Hto. cbn [bind]. eexists. split; [reflexivity|]. eapply key_other; [reflexivity|exact Hb|lia|lia].
    + assert (Hto : to_str e kv = Ret []).
      { unfold to_str. rewrite Hty. cbn [bind]. unfold type_in. repeat match goal with |- context[b <? ?n] => destruct (b <? n) eqn:?; try lia end; try reflexivity. destruct (b =? 52), (b =? 56), (b =? 60); reflexivity. }
      rewrite Hto. cbn [bind]. eexists. split; [reflexivity|]. eapply key_other; [reflexivity|exact Hb|lia|lia].
Qed.

(* ---------- collections ---------- *)

Definition Mv (x : val) (t : tree) : Prop := M (v_pos x) (v_len x) t.

Lemma elements_iff wide : forall xs q, (forall j x, nth_error xs j = Some x -> slot bs wide (q + Z.of_nat j * width_of wide) (v_pos x) (v_len x)) ->
  forall ts, Forall2 Mv xs ts <-> lenZ ts = lenZ xs /\ elements AsLibrary bs (e_sk e) wide q ts.
Proof using.
  assert (Hw : (if wide then 4 else 2) = width_of wide) by (destruct wide; reflexivity).
  induction xs as [|x xs IH]; intros q Hs ts.
  - split.
    + intros H. inversion H; subst. split; [reflexivity|constructor].
    + intros (Hl & _). destruct ts as [|t ts]; [constructor|]. rewrite lenZ_cons, lenZ_nil in Hl. pose proof (lenZ_nonneg ts). lia.
  - assert (Hs0 : slot bs wide q (v_pos x) (v_len x)) by (replace q with (q + Z.of_nat 0 * width_of wide) by lia; apply Hs; reflexivity).
    assert (Hs1 : forall j y, nth_error xs j = Some y -> slot bs wide (q + width_of wide + Z.of_nat j * width_of wide) (v_pos y) (v_len y)).
    { intros j y Hj. replace (q + width_of wide + Z.of_nat j * width_of wide) with (q + Z.of_nat (S j) * width_of wide) by lia. apply Hs. exact Hj. }
    specialize (IH _ Hs1). split.
    + intros H. inversion H as [|? t ? ts' Ht Hts]; subst. apply IH in Hts as (Hl & He). split; [rewrite !lenZ_cons; lia|].
      econstructor; [exact Hs0|exact Ht|]. rewrite Hw. exact He.
    + intros (Hl & He). inversion He as [|? ? p l t ts' Hsl Ht Hts]; subst; [rewrite lenZ_cons, lenZ_nil in Hl; pose proof (lenZ_nonneg xs); lia|].
      destruct (slot_fun e _ _ _ _ _ _ Hs0 Hsl) as (<- & <-). constructor; [exact Ht|]. apply IH. rewrite !lenZ_cons in Hl. rewrite Hw in Hts. split; [lia|exact Hts].
Qed.

Lemma entries_iff v d wide n fp (C : coll e v d wide n fp) : n mod 2 = 0 -> forall f i, 0 <= i <= n -> i mod 2 = 0 -> n - i < Z.of_nat f ->
  exists kvs, dict_collect f e (it_at v wide fp n i) = Ret kvs /\
    forall es, Forall2 (fun kv kt => fst kt = fst kv /\ Mv (snd kv) (snd kt)) kvs es <-> entries AsLibrary bs (e_sk e) wide (v_pos v + fp + i * width_of wide) ((n - i) / 2) es.
Proof using Hwf Hck.
  assert (Hw : (if wide then 4 else 2) = width_of wide) by (destruct wide; reflexivity).
  intros Hn2. induction f as [|f IH]; intros i Hi Hi2 Hf; [lia|]. cbn [dict_collect]. unfold dict_iter_next.
  destruct (Z.eq_dec i n) as [->|Hne].
  { rewrite iter_next_end by lia. cbn [bind]. exists []. split; [reflexivity|]. intros es. replace ((n - n) / 2) with 0 by lia. split.
    - intros H. inversion H; subst. constructor.
    - intros H. inversion H; subst; [constructor|lia|lia]. }
  rewrite iter_next_at by lia.
  destruct (co_elem e _ _ _ _ _ C i ltac:(lia)) as (kv & dk & Hk & _). rewrite Hk. cbn [bind].
  pose proof (co_elem_gd e _ _ _ _ _ C i kv ltac:(lia) Hk) as Hgk.
  destruct (co_elem e _ _ _ _ _ C (i + 1) ltac:(lia)) as (x & dx & Hx & _).
  pose proof (slot_read _ _ _ (co_slots e _ _ _ _ _ C i ltac:(lia)) Hk) as Hsk.
  pose proof (slot_read _ _ _ (co_slots e _ _ _ _ _ C (i + 1) ltac:(lia)) Hx) as Hsx.
  destruct (key_read kv Hgk) as (o & Ho & Hkey). unfold key_text in Ho. destruct (gd_type e kv Hgk) as (ty & Hty & _). rewrite Hty in Ho |- *. cbn [bind] in Ho |- *.
  rewrite Ho. cbn [bind]. destruct o as [k|].
  - rewrite iter_next_at by lia. rewrite Hx. cbn [bind]. replace (i + 1 + 1) with (i + 2) by lia. destruct (IH (i + 2)) as (kvs & Hkvs & He); [lia|lia|lia|]. rewrite Hkvs. cbn [bind].
    eexists. split; [reflexivity|]. intros es. replace ((n - (i + 2)) / 2) with ((n - i) / 2 - 1) in He by lia.
    replace (v_pos v + fp + (i + 2) * width_of wide) with (v_pos v + fp + i * width_of wide + 2 * width_of wide) in He by lia.
    replace (v_pos v + fp + (i + 1) * width_of wide) with (v_pos v + fp + i * width_of wide + width_of wide) in Hsx by lia. split.
    + intros H. inversion H as [|? [k' t] ? es' (Hk' & Ht) Hes]; subst. cbn [fst snd] in *. subst k'. apply He in Hes.
      econstructor; [lia|exact Hsk|exact Hkey| | |]; rewrite ?Hw; [exact Hsx|exact Ht|exact Hes].
    + intros H. inversion H as [? ? En| ? ? ? kp kl k' p l t es' Hn' width Hk' Hkk Hs' Ht Hes|? ? ? kp kl _ Hn' Hk' Hu]; subst.
      * assert ((n - i) / 2 = 0) as En' by congruence. lia.
      * destruct (slot_fun e _ _ _ _ _ _ Hsk Hk') as (<- & <-). unfold width in *. rewrite Hw in Hs', Hes. destruct (slot_fun e _ _ _ _ _ _ Hsx Hs') as (<- & <-).
        constructor; [|apply He; exact Hes]. cbn [fst snd]. split; [exact (key_fun AsLibrary e (e_sk e) _ _ _ _ Hkk Hkey)|exact Ht].
      * destruct (slot_fun e _ _ _ _ _ _ Hsk Hk') as (<- & <-). exfalso. exact (key_known AsLibrary e (e_sk e) _ _ _ Hkey Hu).
  - exists []. split; [reflexivity|]. intros es. split.
    + intros H. inversion H; subst. eapply entries_end; [reflexivity|lia|exact Hsk|exact Hkey].
    + intros H. inversion H as [? ? En| ? ? ? kp kl k' p l t es' Hn' width Hk' Hkk Hs' Ht Hes|? ? ? kp kl _ Hn' Hk' Hu]; subst; [constructor| |constructor].
      destruct (slot_fun e _ _ _ _ _ _ Hsk Hk') as (<- & <-). exfalso. exact (key_known AsLibrary e (e_sk e) _ _ _ Hkk Hkey).
Qed.

Lemma mapM_iff {A B} (f : A -> outcome B) : forall l ts, mapM f l = Ret ts <-> Forall2 (fun x t => f x = Ret t) l ts.
Proof using.
  induction l as [|x l IH]; intros ts; cbn [mapM]; split.
  - intros H. apply ret_inj in H. subst ts. constructor.
  - intros H. inversion H; subst. reflexivity.
  - intros H. binv H. binv H. apply ret_inj in H. subst ts. constructor; [exact Hx|]. apply IH. exact Hx0.
  - intros H. inversion H as [|? t ? ts' Ht Hts]; subst. rewrite Ht. cbn [bind]. apply IH in Hts. rewrite Hts. reflexivity.
Qed.
Lemma Forall2_same {A B} (P Q : A -> B -> Prop) : forall l, (forall x, In x l -> forall t, P x t <-> Q x t) -> forall ts, Forall2 P l ts <-> Forall2 Q l ts.
Proof using.
  induction l as [|x l IH]; intros H ts; split; intros HF; inversion HF as [|? t ? ts' Ht Hts]; subst; constructor; try (apply (H x (or_introl eq_refl)); exact Ht);
    apply IH; try exact Hts; intros y Hy; apply H; right; exact Hy.
Qed.

Theorem read_means : forall f v d, good e v d -> d <= lenZ bs -> meas v d < Z.of_nat f -> forall t, read_tree f e v = Ret t <-> Mv v t.
Proof using Hwf Hck.
  induction f as [|f IH]; intros v d Hg Hd Hm.
  { exfalso. apply good_in in Hg as ((I1 & I2 & _) & I3 & I4). unfold meas in Hm. lia. }
  assert (Hgd : gd e v) by (exists d; tauto). destruct (gd_in e v Hgd) as (Hin & Hl). pose proof Hin as (I1 & I2 & I3).
  destruct (at_in e Hwf (v_pos v)) as (b & Hb & Hby); [lia|]. destruct (Z_lt_dec b 96) as [H96|H96]; [exact (scalar_iff f v b Hgd Hb H96)|].
  pose proof (type_here v b Hgd Hb) as Hty. destruct (gd_type e v Hgd) as (ty & Hty' & Hnp). rewrite Hty in Hty'. apply ret_inj in Hty'. subst ty.
  assert (H128 : b < 128) by (unfold type_in in Hnp; repeat match type of Hnp with context[b <? ?n] => destruct (b <? n) eqn:?; try lia end; congruence).
  assert (Hc : is_coll (type_in b)) by (unfold type_in, is_coll; repeat match goal with |- context[b <? ?n] => destruct (b <? n) eqn:?; try lia end; tauto).
  destruct (gd_coll e Hwf v d _ Hg Hd Hty Hc) as (wide & n & fp & C).
  pose proof (header_read e Hwf Hck v b Hin Hl Hb ltac:(lia) _ _ _ (co_wide e _ _ _ _ _ C) (co_len e _ _ _ _ _ C) (co_fp e _ _ _ _ _ C)) as Hh.
  pose proof (co_n e _ _ _ _ _ C) as Hn0. pose proof (co_small e _ _ _ _ _ C) as (Hn1 & _).
  assert (Hsub : forall i x, 0 <= i < n -> elem e v wide fp i = Ret x -> forall t, read_tree f e x = Ret t <-> Mv x t).
  { intros i x Hi Hx. destruct (co_elem e _ _ _ _ _ C i Hi) as (x' & dx & Hx' & Hgx & Hdx & Hmx). rewrite Hx in Hx'. apply ret_inj in Hx'. subst x'. apply (IH x dx); [exact Hgx|lia|lia]. }
  intros t. cbn [read_tree]. rewrite Hty. cbn [bind]. destruct (Z_lt_dec b 112) as [C1|C1].
  - assert (E : type_in b = TyArray) by (unfold type_in; repeat match goal with |- context[b <? ?n] => destruct (b <? n) eqn:?; try lia end; reflexivity). rewrite E.
    destruct (co_elems e _ _ _ _ _ C) as (xs & Hxs & Hlx & Hnx). rewrite Hxs. cbn [bind].
    assert (Hsl : forall j x, nth_error xs j = Some x -> slot bs wide (v_pos v + fp + Z.of_nat j * width_of wide) (v_pos x) (v_len x)).
    { intros j x Hj. destruct (Hnx j x Hj) as (Hj1 & Hj2). apply slot_read; [apply (co_slots e _ _ _ _ _ C); lia|exact Hj2]. }
    pose proof (elements_iff wide xs _ Hsl) as He.
    assert (Hmap : forall ts, mapM (read_tree f e) xs = Ret ts <-> Forall2 Mv xs ts).
    { intros ts. rewrite mapM_iff. apply Forall2_same. intros x Hx. apply In_nth_error in Hx as (j & Hj). destruct (Hnx j x Hj) as (Hj1 & Hj2). apply (Hsub (Z.of_nat j)); [lia|exact Hj2]. }
    split.
    + intros H. binv H. apply ret_inj in H. subst t. apply Hmap, He in Hx as (Hlt & Hel). eapply means_array; [exact Hb|lia| |exact Hel]. rewrite Hlt, Hlx. exact Hh.
    + intros H. unfold Mv in H. inversion H; subst; same_byte; try lia.
      match goal with H1 : header _ _ _ _ (lenZ ?y) _, H2 : elements _ _ _ _ _ ?y |- _ => destruct (header_fun e _ _ _ _ _ _ _ _ Hh H1) as (<- & En & <-); rewrite (proj2 (Hmap y)); [reflexivity|]; apply He; split; [lia|exact H2] end.
  - assert (E : type_in b = TyDict) by (unfold type_in; repeat match goal with |- context[b <? ?n] => destruct (b <? n) eqn:?; try lia end; reflexivity). rewrite E.
    assert (Hn2 : n mod 2 = 0) by (apply (co_even e Hwf _ _ _ _ _ C); rewrite Hty, E; reflexivity).
    unfold dict_elems. rewrite (co_iter e _ _ _ _ _ C). cbn [bind].
    destruct (entries_iff v d wide n fp C Hn2 (S (length bs)) 0) as (kvs & Hkvs & He); [lia|reflexivity|unfold lenZ in *; lia|]. rewrite Hkvs. cbn [bind].
    replace (v_pos v + fp + 0 * width_of wide) with (v_pos v + fp) in He by lia. replace ((n - 0) / 2) with (n / 2) in He by (f_equal; lia).
    assert (Hmap : forall es, mapM (fun kv => x <- read_tree f e (snd kv) ;; Ret (fst kv, x)) kvs = Ret es <-> Forall2 (fun kv kt => fst kt = fst kv /\ Mv (snd kv) (snd kt)) kvs es).
    { intros es. rewrite mapM_iff. apply Forall2_same. intros [k x] Hx [k' t']. cbn [fst snd].
      destruct (co_dict_collect e Hwf _ _ _ _ _ C (S (length bs)) 0 ltac:(lia) ltac:(unfold lenZ in *; lia)) as (_ & Hin'). destruct (Hin' _ Hkvs _ _ Hx) as (j & kv & H0 & H1 & _ & H2 & _).
      pose proof (Hsub (j + 1) x ltac:(lia) H2) as Hr. split.
      - intros H. binv H. apply ret_inj in H. injection H as <- <-. split; [reflexivity|]. apply Hr. exact Hx0.
      - intros (-> & Ht). apply Hr in Ht. rewrite Ht. reflexivity. }
    split.
    + intros H. binv H. apply ret_inj in H. subst t. apply Hmap, He in Hx. eapply (means_dict _ _ _ _ _ b wide (n / 2)); [exact Hb|lia| |exact Hx]. replace (2 * (n / 2)) with n by lia. exact Hh.
    + intros H. unfold Mv in H. inversion H; subst; same_byte; try lia.
      match goal with H1 : header _ _ _ _ (2 * ?m) _, H2 : entries _ _ _ _ _ ?m ?y |- _ => destruct (header_fun e _ _ _ _ _ _ _ _ Hh H1) as (<- & En & <-); rewrite (proj2 (Hmap y)); [reflexivity|]; apply He; replace (n / 2) with m by lia; exact H2 end.
Qed.
End Meaning.

(* ---------- the views ---------- *)

Lemma both_sub w bs table : w = AsFormat \/ w = AsLibrary ->
  (forall p l t, means AsBoth bs table p l t -> means w bs table p l t) /\
  (forall wide q ts, elements AsBoth bs table wide q ts -> elements w bs table wide q ts) /\
  (forall wide q n es, entries AsBoth bs table wide q n es -> entries w bs table wide q n es).
Proof.
  intros Hw.
  assert (Hi : forall n x z, integer AsBoth n x z -> integer w n x z).
  { intros n x z (H1 & H2). destruct Hw as [-> | ->]; cbn [integer]; [exact H1|]. destruct (n =? 8) eqn:E; [replace 64 with (8 * n) by lia; exact H1|]. lia. }
  assert (Hf : forall x z, float32 AsBoth x z -> float32 w x z).
  { intros x z (-> & H2). destruct Hw as [-> | ->]; cbn [float32]; [reflexivity|]. unfold quiet32. rewrite H2. reflexivity. }
  assert (Ht : forall s t, MeaningSpec.text AsBoth s t -> MeaningSpec.text w s t) by (intros s t [H|(H & _)]; [left; exact H|discriminate]).
  assert (Hk : forall p l k, MeaningSpec.key AsBoth bs table p l k -> MeaningSpec.key w bs table p l k).
  { intros p l k H. destruct H as [p l b s k H1 H2 H3 H4|p l b b1 tb k H1 H2 H3 H4 H5|p l b H1]; [|econstructor 2; eassumption|discriminate].
    eapply key_string; [exact H1|exact H2|exact H3|apply Ht; exact H4]. }
  apply meaning_ind; intros; try (econstructor; eauto; fail). discriminate.
Qed.
Lemma both_meet e table :
  (forall p l t, means AsFormat (e_data e) table p l t -> means AsLibrary (e_data e) table p l t -> means AsBoth (e_data e) table p l t) /\
  (forall wide q ts, elements AsFormat (e_data e) table wide q ts -> elements AsLibrary (e_data e) table wide q ts -> elements AsBoth (e_data e) table wide q ts) /\
  (forall wide q n es, entries AsFormat (e_data e) table wide q n es -> entries AsLibrary (e_data e) table wide q n es -> entries AsBoth (e_data e) table wide q n es).
Proof.
  assert (Ht : forall s t, MeaningSpec.text AsFormat s t -> MeaningSpec.text AsBoth s t) by (intros s t [H|(H & _)]; [left; exact H|discriminate]).
  assert (Hk : forall p l k, MeaningSpec.key AsFormat (e_data e) table p l k -> MeaningSpec.key AsBoth (e_data e) table p l k).
  { intros p l k H. destruct H as [p l b s k H1 H2 H3 H4|p l b b1 tb k H1 H2 H3 H4 H5|p l b H1]; [|econstructor 2; eassumption|discriminate].
    eapply key_string; [exact H1|exact H2|exact H3|apply Ht; exact H4]. }
  apply meaning_ind; try (intros; econstructor; eauto; fail).
  - intros p l b x z Hb Hr Hx Hz H. eapply means_int; [exact Hb|exact Hr|exact Hx|]. inversion H; subst; same_byte; try lia.
    match goal with H1 : number_at _ _ _ ?y, H2 : integer _ _ ?y _ |- _ => rewrite <- (number_fun _ _ _ _ Hx _ H1) in H2; cbn [integer] in Hz, H2 |- *; split; [exact Hz|]; destruct (b - 15 =? 8) eqn:E; lia end.
  - intros p l b x z Hb Hr Hl Hx Hz H. eapply means_float; [exact Hb|exact Hr|exact Hl|exact Hx|]. inversion H; subst; same_byte; try lia.
    match goal with H1 : number_at _ _ _ ?y, H2 : float32 _ ?y _ |- _ => rewrite <- (number_fun _ _ _ _ Hx _ H1) in H2; cbn [float32] in Hz, H2 |- *; subst z; split; [reflexivity|];
      unfold quiet32 in H2; destruct (is_snan32 x); [lia|reflexivity] end.
  - intros p l b wide first ts Hb Hr Hh He IH H. pose proof (header_byte e _ _ _ _ _ _ Hh Hb). inversion H; subst; same_byte; try lia.
    match goal with H1 : header _ _ _ _ (lenZ ts) _, H2 : elements _ _ _ _ _ ts |- _ => destruct (header_fun e _ _ _ _ _ _ _ _ Hh H1) as (<- & _ & <-); eapply means_array; [exact Hb|exact Hr|exact Hh|apply IH; exact H2] end.
  - intros p l b wide n first es Hb Hr Hh He IH H. pose proof (header_byte e _ _ _ _ _ _ Hh Hb). inversion H; subst; same_byte; try lia.
    match goal with H1 : header _ _ _ _ (2 * ?m) _, H2 : entries _ _ _ _ _ ?m es |- _ => destruct (header_fun e _ _ _ _ _ _ _ _ Hh H1) as (<- & E & <-); assert (m = n) as -> by lia; eapply means_dict; [exact Hb|exact Hr|exact Hh|apply IH; exact H2] end.
  - intros wide q p l t ts Hs Hm IHt Hts IHts H. inversion H as [|? ? p' l' t' ts2 Hs' Ht' Hts']; subst.
    destruct (slot_fun e _ _ _ _ _ _ Hs Hs') as (<- & <-). econstructor; [exact Hs|apply IHt; exact Ht'|apply IHts; exact Hts'].
  - intros wide q n kp kl k p l t es Hn width Hsk Hkk Hs Hm IHt Hes IHes H.
    inversion H as [|? ? ? kp' kl' k' p' l' t' es2 Hn' width' Hk' Hkk' Hs' Ht' Hes'|]; subst. destruct (slot_fun e _ _ _ _ _ _ Hs Hs') as (<- & <-).
    econstructor; [exact Hn|exact Hsk|apply Hk; exact Hkk|exact Hs|apply IHt; exact Ht'|apply IHes; exact Hes'].
  - intros; discriminate.
Qed.

Theorem read_exact e : wf_env e -> e_dbg e = true \/ modest e /\ no_long_run (e_data e) ->
  forall r v, from_bytes e = Ret (Ok r) -> reach e r v ->
  forall t, read_doc e v = Ret t <-> means AsLibrary (e_data e) (e_sk e) (v_pos v) (v_len v) t.
Proof.
  intros Hwf Hck r v Hr Hv t. destruct (reach_gd e Hwf r v (root_gd e Hwf r Hr) Hv) as (d & Hg & Hd).
  apply (read_means e Hwf Hck _ v d Hg Hd). apply good_in in Hg as ((I1 & I2 & I3) & _). unfold meas, fuel_of. unfold lenZ in *. lia.
Qed.
Theorem read_right e : wf_env e -> e_dbg e = true \/ modest e /\ no_long_run (e_data e) ->
  forall r v, from_bytes e = Ret (Ok r) -> reach e r v ->
  forall t, means AsFormat (e_data e) (e_sk e) (v_pos v) (v_len v) t ->
  (read_doc e v = Ret t <-> means AsBoth (e_data e) (e_sk e) (v_pos v) (v_len v) t).
Proof.
  intros Hwf Hck r v Hr Hv t Ht. rewrite (read_exact e Hwf Hck r v Hr Hv t). split.
  - apply (proj1 (both_meet e (e_sk e))). exact Ht.
  - apply (proj1 (both_sub AsLibrary _ _ (or_intror eq_refl))).
Qed.
Theorem both_views bs table p l t : means AsBoth bs table p l t <-> means AsFormat bs table p l t /\ means AsLibrary bs table p l t.
Proof.
  split.
  - intros H. split; [apply (proj1 (both_sub AsFormat _ _ (or_introl eq_refl)))|apply (proj1 (both_sub AsLibrary _ _ (or_intror eq_refl)))]; exact H.
  - intros (H1 & H2). exact (proj1 (both_meet (mk_env true 0 bs None) table) _ _ _ H1 H2).
Qed.
Theorem means_single w bs table p l t t' : means w bs table p l t -> means w bs table p l t' -> t = t'.
Proof. intros H. exact (proj1 (meaning_single w (mk_env true 0 bs None) table) p l t H t'). Qed.
Theorem document_read e p l t : wf_env e -> e_dbg e = true \/ modest e /\ no_long_run (e_data e) ->
  document (e_data e) p l -> means AsBoth (e_data e) (e_sk e) p l t ->
  from_bytes e = Ret (Ok (V p l)) /\ read_doc e (V p l) = Ret t.
Proof.
  intros Hwf Hck Hd Hm. pose proof (proj2 (accepted_exactly e Hwf Hck p l) Hd) as Hr. split; [exact Hr|].
  apply (read_exact e Hwf Hck _ (V p l) Hr); [constructor|]. apply both_views in Hm. exact (proj2 Hm).
Qed.
Theorem meaningful e : wf_env e -> e_dbg e = true \/ modest e /\ no_long_run (e_data e) ->
  forall r v, from_bytes e = Ret (Ok r) -> whole_floats e r -> within e r v ->
  exists t, means AsLibrary (e_data e) (e_sk e) (v_pos v) (v_len v) t /\ read_doc e v = Ret t.
Proof.
  intros Hwf Hck r v Hr Hw Hv. pose proof (within_gd e r Hwf Hr v Hv) as Hg. destruct (read_returns e r Hwf Hr Hw v Hv Hg) as (t & Ht).
  exists t. split; [|exact Ht]. destruct Hg as (d & Hg & Hd). apply (read_means e Hwf Hck (fuel_of e) v d Hg Hd); [|exact Ht].
  apply good_in in Hg as ((I1 & I2 & I3) & _). unfold meas, fuel_of. unfold lenZ in *. lia.
Qed.

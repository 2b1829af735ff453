(** The bytes do not depend on how the sorting routine treats equal keys, as long as no dict gets
    the same key twice. *)
From Verif Require Import Prelude Lib Utf8 Float SharedKeys Decode Read Encodable Encoder BuilderSpec
  VarintProofs FloatProofs Holds Repr EncodableProofs Stored StoredRead SlotProofs EncoderProofs
  EncoderInv EncoderClean EncoderProtocol Isort Lookup DetSpec.
From Coq Require Import ZifyBool Sorted Permutation.

(* ---------- sorting ---------- *)

Lemma sorted_unique (l m : list delem) :
  StronglySorted (fun a b => enc_key_cmp (de_key a) (de_key b) <> Gt) l ->
  StronglySorted (fun a b => enc_key_cmp (de_key a) (de_key b) <> Gt) m ->
  Permutation l m ->
  (forall a b, In a l -> In b l -> enc_key_cmp (de_key a) (de_key b) = Eq -> a = b) -> l = m.
Proof.
  revert m. induction l as [|x l IH]; intros m Hl Hm Hp Hd.
  - apply Permutation_nil in Hp. congruence.
  - destruct m as [|y m]; [apply Permutation_sym, Permutation_nil in Hp; discriminate|].
    inversion Hl as [|? ? Hl1 Hl2]; subst. inversion Hm as [|? ? Hm1 Hm2]; subst.
    assert (x = y).
    { assert (Hx : In x (y :: m)) by (eapply Permutation_in; [exact Hp|left; reflexivity]).
      assert (Hy : In y (x :: l)) by (eapply Permutation_in; [apply Permutation_sym; exact Hp|left; reflexivity]).
      destruct Hx as [Hx|Hx]; [congruence|]. destruct Hy as [Hy|Hy]; [congruence|].
      rewrite Forall_forall in Hl2, Hm2. apply Hd; [left; reflexivity|right; exact Hy|].
      specialize (Hl2 y Hy). specialize (Hm2 x Hx). rewrite enc_key_cmp_sym in Hm2.
      destruct (enc_key_cmp (de_key x) (de_key y)); cbn [CompOpp] in *; congruence. }
    subst y. f_equal. apply IH; auto; [eapply Permutation_cons_inv; exact Hp|].
    intros a b Ha Hb. apply Hd; right; assumption.
Qed.

(* ---------- what the stored keys say ---------- *)

Definition said (sk : option shared_keys) (k : dictkey) (txt : list Z) : Prop :=
  match k with
  | DKInline s => sized_str s = txt
  | DKPointer s _ => s = txt
  | DKShared i => exists t, sk = Some t /\ sk_decode t i = Some txt
  end.
Definition opt_list {A} (o : option A) : list A := match o with Some x => [x] | None => [] end.
Definition coll_keys (c : coll) : list dictkey :=
  match c with CArr _ => [] | CDict vs nk => map de_key vs ++ opt_list nk end.
(** All keys of a collection are different. *)
Definition dcoll (sk : option shared_keys) (c : coll) : Prop :=
  exists txts, Forall2 (said sk) (coll_keys c) txts /\ NoDup txts.
Definition dk (e : enc) : Prop := Forall (dcoll (en_sk e)) (en_stack e).

Lemma said_ext sk sk' k txt : sk_ext sk sk' -> said sk k txt -> said sk' k txt.
Proof.
  intros Hx. destruct k; cbn [said]; auto. intros (t & -> & H). destruct sk' as [u|]; [|destruct Hx].
  exists u. split; [reflexivity|]. eapply sk_ext_decode; eauto.
Qed.
Lemma said_eq sk a b x y : said sk a x -> said sk b y -> enc_key_cmp a b = Eq -> x = y.
Proof.
  destruct a, b; cbn [said enc_key_cmp dictkey_str]; intros Ha Hb H; try discriminate; subst; try (apply bytes_cmp_Eq; exact H).
  apply Z.compare_eq in H. subst. destruct Ha as (t & -> & Ha). destruct Hb as (u & E & Hb). injection E as <-. congruence.
Qed.

Lemma Forall2_in_l {A B} (R : A -> B -> Prop) l m x : Forall2 R l m -> In x l -> exists y, In y m /\ R x y.
Proof.
  induction 1 as [|a b l m Hab HF IH]; intros [].
  - subst a. exists b. split; [left; reflexivity|exact Hab].
  - destruct (IH H) as (y & Hy & HR). exists y. split; [right; exact Hy|exact HR].
Qed.
Lemma distinct_elems sk vs nk : dcoll sk (CDict vs nk) ->
  forall a b, In a vs -> In b vs -> enc_key_cmp (de_key a) (de_key b) = Eq -> a = b.
Proof.
  intros (txts & HF & Hnd). cbn [coll_keys] in HF. apply Forall2_app_inv_l in HF as (t1 & t2 & HF & _ & ->).
  assert (Hnd1 : NoDup t1) by (clear - Hnd; induction t1 as [|x t1 IH]; [constructor|];
    cbn [app] in Hnd; inversion Hnd as [|? ? H1 H2]; subst; constructor; [intros Hi; apply H1, in_or_app; left; exact Hi|auto]).
  clear Hnd t2. revert t1 HF Hnd1. induction vs as [|d vs IH]; intros t1 HF Hnd a b Ha Hb E; [destruct Ha|].
  cbn [map] in HF. inversion HF as [|? x ? t1' Hd HF' E1 E2]; subst. inversion Hnd as [|? ? Hn1 Hn2]; subst.
  assert (Hno : forall y, In y vs -> enc_key_cmp (de_key d) (de_key y) = Eq -> False).
  { intros y Hy Hc. destruct (Forall2_in_l _ _ _ (de_key y) HF') as (z & Hz & Hs); [apply in_map; exact Hy|].
    apply Hn1. rewrite (said_eq _ _ _ _ _ Hd Hs Hc). exact Hz. }
  destruct Ha as [Ha|Ha], Hb as [Hb|Hb].
  - congruence.
  - subst a. exfalso. eauto.
  - subst b. exfalso. apply (Hno a Ha). rewrite enc_key_cmp_sym, E. reflexivity.
  - eapply IH; eauto.
Qed.

(* ---------- two sorting routines ---------- *)

Section Two.
Variables (c : cfg) (s2 : list delem -> list delem).
Let c2 := with_sort c s2.
Hypothesis Hs1 : sort_ok (c_sort c).
Hypothesis Hs2 : sort_ok s2.

Lemma sort_same sk vs nk : dcoll sk (CDict vs nk) -> c_sort c vs = s2 vs.
Proof using Hs1 Hs2.
  intros H. destruct (Hs1 vs) as [P1 S1]. destruct (Hs2 vs) as [P2 S2]. apply sorted_unique; auto.
  - rewrite <- P1. exact P2.
  - intros a b Ha Hb. apply (distinct_elems sk vs nk H); eapply Permutation_in; try eassumption; apply Permutation_sym; exact P1.
Qed.
Lemma write_slots_same w : forall vs e, write_slots c2 e w vs = write_slots c e w vs.
Proof using. induction vs as [|s vs IH]; intros e; [reflexivity|]. cbn [write_slots]. unfold c2 in *.
  change (enc_write (with_sort c s2) e (ESized s) w false) with (enc_write c e (ESized s) w false).
  destruct (enc_write c e (ESized s) w false); cbn [bind]; auto. Qed.
Lemma write_entries_same w : forall vs e, write_entries c2 e w vs = write_entries c e w vs.
Proof using.
  induction vs as [|d vs IH]; intros e; [reflexivity|]. cbn [write_entries]. unfold c2 in *.
  destruct (dictkey_sized (de_key d)) as [[ks|]| | |]; cbn [bind]; auto.
  change (enc_write (with_sort c s2)) with (enc_write c).
  destruct (enc_write c e (ESized ks) w false) as [[e1 o]| | |]; cbn [bind]; auto.
  destruct (enc_write c (fst (e1, o)) (ESized (de_val d)) w false) as [[e3 o3]| | |]; cbn [bind]; auto.
Qed.
Lemma end_array_same e : end_array c2 e = end_array c e.
Proof using.
  unfold end_array. destruct (stack_pop (en_stack e)) as [[[vs|vs nk]|] st]; auto.
  change (c_dbg c2) with (c_dbg c). destruct (array_should_be_wide _ _ _) as [w| | |]; cbn [bind]; auto.
  change (enc_write c2) with (enc_write c). destruct (enc_write c _ _ _ _) as [[e1 o]| | |]; cbn [bind]; auto.
  destruct (fix_array_pointers _ _ _ _) as [vs'| | |]; cbn [bind]; auto. rewrite write_slots_same. reflexivity.
Qed.
Lemma end_dict_same e : dk e -> end_dict c2 e = end_dict c e.
Proof using Hs1 Hs2.
  intros Hd. unfold end_dict. unfold dk in Hd. destruct (en_stack e) as [|[vs|vs [k|]] st]; auto. inversion Hd as [|? ? H1 H2]; subst.
  change (c_dbg c2) with (c_dbg c). destruct (dict_should_be_wide _ _ _ _) as [w| | |]; cbn [bind]; auto.
  change (enc_write c2) with (enc_write c). destruct (enc_write c _ _ _ _) as [[e1 o]| | |]; cbn [bind]; auto.
  change (c_sort c2 vs) with (s2 vs). rewrite <- (sort_same _ _ _ H1).
  destruct (fix_dict_pointers _ _ _ _) as [vs'| | |]; cbn [bind]; auto. rewrite write_entries_same. reflexivity.
Qed.
Lemma step_same e o : dk e -> enc_step c2 e o = enc_step c e o.
Proof using Hs1 Hs2.
  intros Hd. destruct o; cbn [enc_step]; try reflexivity; [apply end_array_same|apply end_dict_same; exact Hd].
Qed.

(* ---------- closing keeps the keys different ---------- *)

Lemma dk_same e e' : en_stack e' = en_stack e -> en_sk e' = en_sk e -> dk e -> dk e'.
Proof using. intros H1 H2. unfold dk. rewrite H1, H2. auto. Qed.
Lemma finished_dk e off e' r : finished_collection c e off = Ret (e', r) -> dk e -> dk e'.
Proof using.
  unfold finished_collection. intros H Hd. destruct (en_stack e) as [|top st] eqn:Est.
  - destruct (u32_sub _ _ _) as [o| | |]; try discriminate. cbn [bind] in H.
    destruct (o <=? MAX_NARROW).
    + destruct (new_pointer o); [|discriminate].
      destruct (enc_write c e _ _ _) as [[e1 o1]| | |] eqn:E; try discriminate. cbn [bind fst] in H.
      injection H as <- <-. apply enc_write_grown in E as [(G & G2 & _) _]. apply (dk_same e); cbn [set_closed en_stack en_sk]; auto.
    + destruct (new_pointer o); [|injection H as <- <-; auto].
      destruct (enc_write c e _ _ _) as [[e1 o1]| | |] eqn:E; try discriminate. cbn [bind fst] in H.
      destruct (new_pointer 4); [|discriminate].
      destruct (enc_write c e1 _ _ _) as [[e2 o2]| | |] eqn:E2; try discriminate. cbn [bind fst] in H.
      injection H as <- <-. apply enc_write_grown in E as [(G & G1 & _) _]. apply enc_write_grown in E2 as [(G2 & G3 & _) _].
      apply (dk_same e); cbn [set_closed en_stack en_sk]; congruence.
  - unfold dk in Hd. rewrite Est in Hd. inversion Hd as [|? ? H1 H2]; subst.
    destruct (new_pointer off) as [p|]; [|injection H as <- <-; unfold dk; rewrite Est; exact Hd].
    destruct top as [vs|vs [k|]]; injection H as <- <-; unfold dk; cbn [set_stack en_stack en_sk].
    + constructor; [|exact H2]. exists []. split; constructor.
    + constructor; [|exact H2]. destruct H1 as (txts & HF & Hn). exists txts. split; [|exact Hn].
      cbn [coll_keys opt_list] in *. rewrite map_app. cbn [map de_key]. rewrite app_nil_r. exact HF.
    + rewrite Est. exact Hd.
Qed.
Lemma end_array_dk e e' r : end_array c e = Ret (e', r) -> dk e -> dk e'.
Proof using.
  unfold end_array. intros H Hd. unfold dk in Hd.
  destruct (en_stack e) as [|[vs|vs [k|]] st] eqn:Est; cbn [stack_pop] in H.
  - injection H as <- <-. unfold dk; cbn [set_stack en_stack]. constructor.
  - inversion Hd as [|? ? H1 H2]; subst. 
    destruct (array_should_be_wide _ _ _) as [w| | |]; try discriminate. cbn [bind] in H.
    destruct (enc_write c _ _ _ _) as [[e1 o1]| | |] eqn:E; try discriminate. cbn [bind] in H.
    destruct (fix_array_pointers _ _ _ _) as [vs'| | |]; try discriminate. cbn [bind] in H.
    destruct (write_slots c e1 w vs') as [e2| | |] eqn:Ew; try discriminate. cbn [bind] in H.
    apply enc_write_grown in E as [G _]. apply write_slots_grown in Ew as G2.
    destruct (grown_trans _ _ _ G G2) as (G3 & G4 & _). cbn [set_stack en_stack en_sk] in G3, G4.
    eapply finished_dk; [exact H|]. unfold dk. rewrite G3, G4. exact H2.
  - injection H as <- <-. unfold dk; cbn [set_stack en_stack en_sk]. exact Hd.
  - injection H as <- <-. unfold dk; cbn [set_stack en_stack en_sk]. inversion Hd; assumption.
Qed.
Lemma end_dict_dk e e' r : end_dict c e = Ret (e', r) -> dk e -> dk e'.
Proof using.
  unfold end_dict. intros H Hd. pose proof Hd as Hd0. unfold dk in Hd.
  destruct (en_stack e) as [|[vs|vs [k|]] st] eqn:Est; try (injection H as <- <-; exact Hd0).
  inversion Hd as [|? ? H1 H2]; subst. cbn [set_stack en_out] in H.
  destruct (dict_should_be_wide _ _ _ _) as [w| | |]; try discriminate. cbn [bind] in H.
  destruct (enc_write c _ _ _ _) as [[e1 o1]| | |] eqn:E; try discriminate. cbn [bind] in H.
  destruct (fix_dict_pointers _ _ _ _) as [vs'| | |]; try discriminate. cbn [bind] in H.
  destruct (write_entries c e1 w vs') as [[e2 r2]| | |] eqn:Ew; try discriminate. unfold eseq in H; cbn [bind fst snd] in H.
  apply enc_write_grown in E as [G _]. apply write_entries_grown in Ew as G2.
  destruct (grown_trans _ _ _ G G2) as (G3 & G4 & _). cbn [set_stack en_stack en_sk] in G3, G4.
  assert (Hd2 : dk e2) by (unfold dk; rewrite G3, G4; exact H2).
  destruct r2 as [[]|er]; [eapply finished_dk; eauto|injection H as <- <-; exact Hd2].
Qed.
Lemma enc_end_same : forall f e, dk e -> enc_end f c2 e = enc_end f c e.
Proof using Hs1 Hs2.
  induction f as [|f IH]; intros e Hd; [reflexivity|]. cbn [enc_end].
  destruct (en_stack e) as [|[vs|vs nk] st] eqn:Est; auto.
  - rewrite end_array_same. destruct (end_array c e) as [[e1 r1]| | |] eqn:E; cbn [bind fst]; auto.
    apply IH. eapply end_array_dk; eauto.
  - assert (Hd' : dk (set_stack e (CDict vs None :: st))).
    { unfold dk in *; cbn [set_stack en_stack en_sk]. rewrite Est in Hd. inversion Hd as [|? ? H1 H2]; subst. constructor; [|exact H2].
      destruct H1 as (txts & HF & Hn). cbn [coll_keys] in HF. apply Forall2_app_inv_l in HF as (t1 & t2 & HF & _ & ->).
      exists t1. split; [cbn [coll_keys opt_list]; rewrite app_nil_r; exact HF|].
      clear - Hn. induction t1 as [|x t1 IH]; [constructor|]. cbn [app] in Hn. inversion Hn as [|? ? A B]; subst.
      constructor; [intros Hi; apply A, in_or_app; left; exact Hi|auto]. }
    rewrite end_dict_same by exact Hd'. destruct (end_dict c _) as [[e1 r1]| | |] eqn:E; cbn [bind fst]; auto.
    apply IH. eapply end_dict_dk; eauto.
Qed.
Lemma finish_same e : dk e -> finish c2 e = finish c e.
Proof using Hs1 Hs2. intros Hd. unfold finish. rewrite enc_end_same by exact Hd. reflexivity. Qed.
End Two.

(* ---------- the keys of the calls ---------- *)

(** The stored keys say what was written. *)
Definition kframe (sk : option shared_keys) (c : coll) (f : frame) : Prop :=
  match c, f with
  | CArr _, FArr _ => True
  | CDict vs nk, FDict l p =>
      Forall2 (fun d kt => said sk (de_key d) (fst kt)) vs l /\
      match nk, p with Some k, Some x => said sk k x | None, None => True | _, _ => False end
  | _, _ => False
  end.
Definition keyed (e : enc) (b : bstate) : Prop := Forall2 (kframe (en_sk e)) (en_stack e) (b_stack b).

Lemma kframe_ext sk sk' c f : sk_ext sk sk' -> kframe sk c f -> kframe sk' c f.
Proof.
  intros Hx. destruct c as [vs|vs nk], f as [l|l p]; cbn [kframe]; auto. intros [H1 H2]. split.
  - eapply Forall2_imp; [|exact H1]. intros d kt. apply said_ext. exact Hx.
  - destruct nk, p; auto. eapply said_ext; eauto.
Qed.
Lemma keyed_ext e e' b : en_stack e' = en_stack e -> sk_ext (en_sk e) (en_sk e') -> keyed e b -> keyed e' b.
Proof.
  intros H1 H2. unfold keyed. rewrite H1. apply Forall2_imp. intros c f. apply kframe_ext. exact H2.
Qed.
Lemma keyed_grown e e' b : grown e e' -> keyed e b -> keyed e' b.
Proof. intros (H1 & H2 & _). apply keyed_ext; [exact H1|rewrite H2; apply sk_ext_refl]. Qed.
Lemma keyed_dk e b : keyed e b -> Forall (fun f => NoDup (frame_keys f)) (b_stack b) -> dk e.
Proof.
  unfold keyed, dk. induction 1 as [|c f st fr Hc HF IH]; intros Hn; [constructor|].
  inversion Hn as [|? ? H1 H2]; subst. constructor; [|auto].
  destruct c as [vs|vs nk], f as [l|l p]; cbn [kframe] in Hc; try contradiction.
  - exists []. split; constructor.
  - destruct Hc as [H3 H4]. exists (frame_keys (FDict l p)). split; [|exact H1].
    cbn [coll_keys frame_keys]. apply Forall2_app.
    + clear - H3. induction H3; cbn [map]; constructor; auto.
    + destruct nk, p; try contradiction; cbn [opt_list]; repeat constructor; auto.
Qed.

Lemma push_key_keyed e b k kb : keyed e b -> said (en_sk e) k kb ->
  keyed (fst (push_key e k)) (match b_step b (OpKey kb) with Ok b' => b' | Err _ => b end).
Proof.
  intros H Hk. unfold push_key. cbn [b_step]. pose proof H as H0. unfold keyed in H.
  destruct (en_stack e) as [|[vs|vs [k1|]] st] eqn:Es; inversion H as [|? f ? fr Hf HF E1 E2]; subst.
  - exact H0.
  - destruct f as [l|l p]; cbn [kframe] in Hf; [|contradiction]. exact H0.
  - destruct f as [l|l [p|]]; cbn [kframe] in Hf; try (destruct Hf; contradiction); try contradiction. exact H0.
  - destruct f as [l|l [p|]]; cbn [kframe] in Hf; try (destruct Hf; contradiction); try contradiction.
    unfold keyed; cbn [fst set_stack en_stack en_sk b_stack]. constructor; [|exact HF]. cbn [kframe]. tauto.
Qed.
Lemma push_value_keyed e b s v : keyed e b ->
  keyed (fst (push_value e s)) (match b_step b (OpValue v) with Ok b' => b' | Err _ => b end).
Proof.
  intros H. unfold push_value. cbn [b_step]. pose proof H as H0. unfold keyed in H.
  destruct (en_stack e) as [|[vs|vs [k1|]] st] eqn:Es; inversion H as [|? f ? fr Hf HF E1 E2]; subst.
  - exact H0.
  - destruct f as [l|l p]; cbn [kframe] in Hf; [|contradiction].
    unfold keyed; cbn [fst set_stack en_stack en_sk b_stack]. constructor; [|exact HF]. exact I.
  - destruct f as [l|l [p|]]; cbn [kframe] in Hf; try (destruct Hf; contradiction); try contradiction.
    unfold keyed; cbn [fst set_stack en_stack en_sk b_stack]. constructor; [|exact HF]. cbn [kframe add_child].
    destruct Hf as [H1 H2]. split; [|exact I]. apply Forall2_app; [exact H1|]. constructor; [exact H2|constructor].
  - destruct f as [l|l [p|]]; cbn [kframe] in Hf; try (destruct Hf; contradiction); try contradiction. exact H0.
Qed.
Lemma finished_keyed c e off e' r b f fr : finished_collection c e off = Ret (e', r) -> r <> Err PointerTooLarge ->
  b_stack b = f :: fr -> Forall2 (kframe (en_sk e)) (en_stack e) fr ->
  Forall (fun k => k <> Some false) (map ckind (en_stack e)) -> keyed e' (b_pop b).
Proof.
  intros H Hr Eb HF Hp. unfold finished_collection in H. unfold b_pop. rewrite Eb.
  destruct (en_stack e) as [|top st] eqn:Est; inversion HF as [|? g ? fr' Ht HF' E1 E2]; subst.
  - destruct (u32_sub _ _ _) as [o| | |]; try discriminate. cbn [bind] in H.
    destruct (o <=? MAX_NARROW).
    + destruct (new_pointer o); [|discriminate].
      destruct (enc_write c e _ _ _) as [[e1 o1]| | |] eqn:E; try discriminate. cbn [bind fst] in H.
      injection H as <- <-. apply enc_write_grown in E as [(G & G2 & _) _].
      unfold keyed; cbn [set_closed en_stack en_sk b_stack]. rewrite G, Est. constructor.
    + destruct (new_pointer o); [|injection H as <- <-; congruence].
      destruct (enc_write c e _ _ _) as [[e1 o1]| | |] eqn:E; try discriminate. cbn [bind fst] in H.
      destruct (new_pointer 4); [|discriminate].
      destruct (enc_write c e1 _ _ _) as [[e2 o2]| | |] eqn:E2; try discriminate. cbn [bind fst] in H.
      injection H as <- <-. apply enc_write_grown in E as [(G & _) _]. apply enc_write_grown in E2 as [(G2 & _) _].
      unfold keyed; cbn [set_closed en_stack en_sk b_stack]. rewrite G2, G, Est. constructor.
  - cbn [map] in Hp. inversion Hp as [|? ? Hp1 Hp2]; subst.
    destruct (new_pointer off) as [p|]; [|injection H as <- <-; congruence].
    destruct top as [vs|vs [k|]]; cbn [ckind] in Hp1; try congruence; injection H as <- <-;
      unfold keyed; cbn [set_stack en_stack en_sk b_stack]; (constructor; [|exact HF']).
    + destruct g as [l|l q]; cbn [kframe] in Ht; [exact I|contradiction].
    + destruct g as [l|l [q|]]; cbn [kframe] in Ht; try (destruct Ht; contradiction); try contradiction.
      destruct Ht as [H1 H2]. cbn [add_child kframe]. split; [|exact I]. apply Forall2_app; [exact H1|]. constructor; [exact H2|constructor].
Qed.

Lemma step_keyed c e b o e' r shared :
  enc_step c e o = Ret (e', r) -> r <> Err PointerTooLarge -> sh e b -> regular b o -> keyed e b ->
  (forall k, o = OpKey k -> wf_enc (EStr k)) -> keys_ok shared [o] -> (shared = false -> en_sk e = None) ->
  keyed e' (match b_step b o with Ok b' => b' | Err _ => b end).
Proof.
  intros H Hr Hsh Hreg Hk Hwf Hko Hnone. pose proof Hsh as [H1 H2 H3 H4].
  destruct o as [k|v|n| | | |t]; cbn [enc_step regular] in *.
  - specialize (Hwf k eq_refl). unfold write_key in H. destruct (to_sized_value (EStr k)) as [s|] eqn:Es.
    + apply Ret_inj in H. pose proof (push_key_keyed e b (DKInline s) k Hk) as Hp. rewrite H in Hp. apply Hp.
      destruct (sized_repr _ _ Hwf eq_refl Es) as (b0 & b1 & -> & Hrp). cbn [said]. apply sized_str_inline. exact Hrp.
    + assert (Hp : forall e0, keyed e0 b -> write_key_pointer c e0 k = Ret (e', r) ->
        keyed e' (match b_step b (OpKey k) with Ok b' => b' | Err _ => b end)).
      { intros e0 Hs0 H0. unfold write_key_pointer in H0.
        destruct (enc_write c e0 _ _ _) as [[e1 o1]| | |] eqn:E; try discriminate. cbn [bind] in H0.
        apply enc_write_grown in E as [G _]. apply Ret_inj in H0.
        pose proof (push_key_keyed e1 b (DKPointer k o1) k (keyed_grown _ _ _ G Hs0)) as Hx. rewrite H0 in Hx. apply Hx. reflexivity. }
      unfold write_key_long in H. destruct (en_sk e) as [t|] eqn:Esk; [|eauto].
      destruct (sh_cases e b Hsh) as [[E1 E2]|[(vs & st & l & fr & E1 & E2 & E3)|Hd]].
      * rewrite E1 in H. injection H as <- <-. cbn [b_step]. rewrite E2. exact Hk.
      * rewrite E1 in H. injection H as <- <-. cbn [b_step]. rewrite E2. exact Hk.
      * assert (Hx : (let '(t', i) := encode_and_insert (c_ua c) t k in
                      match i with Some i => Ret (push_key (set_sk e (Some t')) (DKShared i))
                      | None => write_key_pointer c (set_sk e (Some t')) k end) = Ret (e', r)).
        { destruct Hd as [(vs & st & l & fr & E1 & E2 & E3)|(vs & k1 & st & l & k2 & fr & E1 & E2 & E3)];
            rewrite E1 in H; exact H. }
        assert (Hn : lenZ k <> 16) by (destruct Hko as [Hko _]; apply Hko; destruct shared; [reflexivity|specialize (Hnone eq_refl); discriminate]).
        destruct (encode_and_insert (c_ua c) t k) as [t' i] eqn:Ei.
        destruct (encode_and_insert_ok _ _ _ _ _ Hn Ei) as [Hext Hi].
        assert (Hk' : keyed (set_sk e (Some t')) b) by (apply (keyed_ext e); [reflexivity|cbn [set_sk en_sk]; rewrite Esk; exact Hext|exact Hk]).
        destruct i as [i|].
        -- apply Ret_inj in Hx. pose proof (push_key_keyed _ b (DKShared i) k Hk') as Hy. rewrite Hx in Hy. apply Hy.
           cbn [said set_sk en_sk]. exists t'. split; [reflexivity|apply Hi].
        -- eapply Hp; [|exact Hx]. exact Hk'.
  - unfold write_value in H. destruct (en_stack e) as [|cc st] eqn:Est.
    { injection H as <- <-. destruct (b_stack b) as [|f fr] eqn:Eb; [|discriminate]. cbn [b_step]. rewrite Eb. exact Hk. }
    destruct (to_sized_value v) as [s|].
    + apply Ret_inj in H. pose proof (push_value_keyed e b s v Hk) as Hx. rewrite H in Hx. exact Hx.
    + destruct (enc_write c e v false false) as [[e1 o1]| | |] eqn:E; try discriminate. cbn [bind] in H.
      apply enc_write_grown in E as [G _].
      destruct (new_pointer o1) as [p|]; apply Ret_inj in H.
      * pose proof (push_value_keyed e1 b p v (keyed_grown _ _ _ G Hk)) as Hx. rewrite H in Hx. exact Hx.
      * injection H as <- <-. congruence.
  - unfold begin_array in H. cbn [b_step]; unfold b_begin. rewrite H3 in H.
    destruct (b_root b) as [t|] eqn:Er; [injection H as <- <-; exact Hk|].
    destruct (sh_cases e b Hsh) as [[E1 E2]|[(vs & st & l & fr & E1 & E2 & E3)|[(vs & st & l & fr & E1 & E2 & E3)|(vs & k1 & st & l & k2 & fr & E1 & E2 & E3)]]];
      rewrite E2; rewrite E1 in H; cbn [top_waits_for_key] in H;
      try (injection H as <- <-; exact Hk); destruct (two63 <=? n * 4); try discriminate; injection H as <- <-;
      unfold keyed in *; cbn [set_stack en_stack en_sk b_stack] in *; rewrite E1, E2 in Hk; (constructor; [exact I|exact Hk]).
  - unfold end_array in H. cbn [b_step].
    destruct (sh_cases e b Hsh) as [[E1 E2]|[(vs & st & l & fr & E1 & E2 & E3)|[(vs & st & l & fr & E1 & E2 & E3)|(vs & k1 & st & l & k2 & fr & E1 & E2 & E3)]]];
      rewrite E2 in *; rewrite E1 in H; cbn [stack_pop] in H.
    + injection H as <- <-. apply (keyed_ext e); [cbn [set_stack en_stack]; congruence|apply sk_ext_refl|exact Hk].
    + cbn [set_stack en_out] in H.
      destruct (array_should_be_wide _ _ _) as [w| | |]; try discriminate. cbn [bind] in H.
      destruct (enc_write c _ _ _ _) as [[e1 o1]| | |] eqn:E; try discriminate. cbn [bind] in H.
      destruct (fix_array_pointers _ _ _ _) as [vs'| | |]; try discriminate. cbn [bind] in H.
      destruct (write_slots c e1 w vs') as [e2| | |] eqn:Ew; try discriminate. cbn [bind] in H.
      apply enc_write_grown in E as [G _]. apply write_slots_grown in Ew as G2.
      destruct (grown_trans _ _ _ G G2) as (G3 & G4 & _). cbn [set_stack en_stack en_sk] in G3, G4.
      unfold keyed in Hk. rewrite E1, E2 in Hk. assert (HF : Forall2 (kframe (en_sk e)) st fr) by (inversion Hk; assumption).
      eapply finished_keyed; [exact H|exact Hr|exact E2|rewrite G3, G4; exact HF|]. rewrite G3. rewrite E1 in H2. exact H2.
    + destruct Hreg.
    + injection H as <- <-. apply (keyed_ext e); [cbn [set_stack en_stack]; congruence|apply sk_ext_refl|exact Hk].
  - unfold begin_dict in H. cbn [b_step]; unfold b_begin. rewrite H3 in H. rewrite Hreg in *.
    destruct (sh_cases e b Hsh) as [[E1 E2]|[(vs & st & l & fr & E1 & E2 & E3)|[(vs & st & l & fr & E1 & E2 & E3)|(vs & k1 & st & l & k2 & fr & E1 & E2 & E3)]]];
      rewrite E2; rewrite E1 in H; cbn [top_waits_for_key] in H; injection H as <- <-; try exact Hk;
      unfold keyed in *; cbn [set_stack en_stack en_sk b_stack] in *; rewrite E1, E2 in Hk; (constructor; [split; [constructor|exact I]|exact Hk]).
  - unfold end_dict in H. cbn [b_step].
    destruct (sh_cases e b Hsh) as [[E1 E2]|[(vs & st & l & fr & E1 & E2 & E3)|[(vs & st & l & fr & E1 & E2 & E3)|(vs & k1 & st & l & k2 & fr & E1 & E2 & E3)]]];
      rewrite E2 in *; rewrite E1 in H; try (injection H as <- <-; exact Hk).
    cbn [set_stack en_out] in H.
    destruct (dict_should_be_wide _ _ _ _) as [w| | |]; try discriminate. cbn [bind] in H.
    destruct (enc_write c _ _ _ _) as [[e1 o1]| | |] eqn:E; try discriminate. cbn [bind] in H.
    destruct (fix_dict_pointers _ _ _ _) as [vs'| | |]; try discriminate. cbn [bind] in H.
    destruct (write_entries c e1 w vs') as [[e2 r2]| | |] eqn:Ew; try discriminate. unfold eseq in H; cbn [bind fst snd] in H.
    destruct r2 as [[]|er]; [|apply write_entries_err in Ew; injection H as <- <-; congruence].
    apply enc_write_grown in E as [G _]. apply write_entries_grown in Ew as G2.
    destruct (grown_trans _ _ _ G G2) as (G3 & G4 & _). cbn [set_stack en_stack en_sk] in G3, G4.
    unfold keyed in Hk. rewrite E1, E2 in Hk. assert (HF : Forall2 (kframe (en_sk e)) st fr) by (inversion Hk; assumption).
    eapply finished_keyed; [exact H|exact Hr|exact E2|rewrite G3, G4; exact HF|]. rewrite G3. rewrite E1 in H2. exact H2.
  - injection H as <- <-. cbn [b_step]. destruct Hko as [Hko _]. 
    apply (keyed_ext e); [reflexivity| |exact Hk]. rewrite (Hnone Hko). exact I.
Qed.

(** Whether a table has been set. *)
Definition next_shared (shared : bool) (o : op) : bool := match o with OpSetSharedKeys _ => true | _ => shared end.
Lemma keys_ok_cons shared o ops : keys_ok shared (o :: ops) -> keys_ok shared [o] /\ keys_ok (next_shared shared o) ops.
Proof. destruct o; cbn [keys_ok next_shared]; tauto. Qed.
Lemma step_none c e o e' r : enc_step c e o = Ret (e', r) -> next_shared false o = false -> en_sk e = None -> en_sk e' = None.
Proof.
  intros H Hs Hn. apply step_ext in H as (_ & H & _). apply H. split; [exact Hn|]. intros t ->. discriminate.
Qed.

Lemma run_same c s2 : sort_ok (c_sort c) -> sort_ok s2 -> forall ops e b e' rs shared,
  enc_run c e ops = Ret (e', rs) -> ~ In (Err PointerTooLarge) rs ->
  sh e b -> regulars b ops -> keyed e b -> no_repeats b ops -> text_keys ops -> keys_ok shared ops ->
  (shared = false -> en_sk e = None) ->
  enc_run (with_sort c s2) e ops = Ret (e', rs) /\ dk e'.
Proof.
  intros Hs1 Hs2. induction ops as [|o ops IH]; intros e b e' rs shared H Hn Hsh Hreg Hk Hnr Ht Hko Hnone; cbn [enc_run] in H.
  { injection H as <- <-. split; [reflexivity|]. eapply keyed_dk; [exact Hk|apply Hnr]. }
  destruct (enc_step c e o) as [[e1 r1]| | |] eqn:E; try discriminate. cbn [bind fst snd] in H.
  destruct (enc_run c e1 ops) as [[e2 r2]| | |] eqn:E2; try discriminate. cbn [bind fst snd] in H.
  injection H as <- <-. destruct Hreg as [Hr1 Hr2]. destruct Hnr as [Hn0 Hnr]. destruct (keys_ok_cons _ _ _ Hko) as [Hk1 Hk2].
  assert (Hn1 : r1 <> Err PointerTooLarge) by (intros ->; apply Hn; left; reflexivity).
  assert (Hn2 : ~ In (Err PointerTooLarge) r2) by (intros Hx; apply Hn; right; exact Hx).
  pose proof (step_sh _ _ _ _ _ _ E Hsh Hr1) as Hst. unfold sh_step in Hst.
  assert (Hsh' : sh e1 (match b_step b o with Ok b' => b' | Err _ => b end)).
  { destruct (b_step b o) as [b'|er]; destruct Hst as [[_ Hst]|Hst]; auto; congruence. }
  pose proof (step_keyed c e b o e1 r1 shared E Hn1 Hsh Hr1 Hk ltac:(intros k ->; apply Ht; left; reflexivity) Hk1 Hnone) as Hk'.
  destruct (IH e1 _ e2 r2 (next_shared shared o) E2 Hn2 Hsh' Hr2 Hk' Hnr ltac:(intros k Hi; apply Ht; right; exact Hi) Hk2) as [IH1 IH2].
  { intros Hf. destruct shared; [destruct o; discriminate|]. eapply step_none; eauto. }
  split; [|exact IH2]. cbn [enc_run]. rewrite (step_same c s2 Hs1 Hs2) by (eapply keyed_dk; [exact Hk|exact Hn0]).
  rewrite E; cbn [bind fst snd]. rewrite IH1. reflexivity.
Qed.

Lemma document_same c s2 prefix ops e' rs : sort_ok (c_sort c) -> sort_ok s2 ->
  regulars b_init ops -> no_repeats b_init ops -> text_keys ops -> keys_ok false ops ->
  enc_run c (enc_new_to_vec prefix) ops = Ret (e', rs) -> ~ In (Err PointerTooLarge) rs ->
  enc_run (with_sort c s2) (enc_new_to_vec prefix) ops = Ret (e', rs) /\
  finish (with_sort c s2) e' = finish c e'.
Proof.
  intros Hs1 Hs2 Hreg Hnr Ht Hko H Hn.
  destruct (run_same c s2 Hs1 Hs2 ops (enc_new_to_vec prefix) b_init e' rs false H Hn) as [H1 H2]; auto.
  - apply sh_init.
  - constructor.
  - split; [exact H1|]. apply finish_same; auto.
Qed.

(** The encoder lays documents out as LayoutSpec.v says; documents of any size. *)
From Verif Require Import Prelude Lib Varint VarintProofs Utf8 Float SharedKeys
  Decode Read Encodable Encoder BuilderSpec LayoutSpec Holds Repr EncodableProofs Stored StoredRead SlotProofs
  EncoderProofs EncoderInv EncoderClean.
From Coq Require Import ZifyBool ZifyNat ZifyN Sorted Permutation.
Ltac Zify.zify_post_hook ::= Z.div_mod_to_equations.

(* ---------- lists of positions ---------- *)

Definition ptr_of (s : sized) : list Z := if is_ptr s then [pointer_offset s] else [].
Definition kpos (k : dictkey) : option Z := match k with DKPointer _ off => Some off | _ => None end.
Definition kptr_of (k : dictkey) : list Z := opt_cons (kpos k) [].

Lemma existsb_rev {A} (f : A -> bool) l : existsb f (rev l) = existsb f l.
Proof.
  destruct (existsb f l) eqn:E.
  - apply existsb_exists in E as (x & Hx & Hf). apply existsb_exists. exists x. rewrite <- in_rev. auto.
  - apply Bool.not_true_is_false. intros H. apply existsb_exists in H as (x & Hx & Hf). rewrite <- in_rev in Hx.
    assert (existsb f l = true) by (apply existsb_exists; eauto). congruence.
Qed.

Inductive frel : coll -> lframe -> Prop :=
| fr_arr vs sh :
    (sh = false -> Forall (sclean 0) vs) ->
    frel (CArr vs) (LArr (lenZ vs) sh (rev (flat_map ptr_of vs)))
| fr_dict vs nk sh :
    (sh = false -> cclean 0 (CDict vs nk)) ->
    frel (CDict vs nk) (LDict (lenZ vs) sh (rev (flat_map (fun d => ptr_of (de_val d)) vs))
                          (rev (flat_map (fun d => kptr_of (de_key d)) vs)) (option_map kpos nk)).
Record lrel (e : enc) (l : lstate) : Prop := mk_lrel {
  lr_pos : l_pos l = lenZ (en_out e);
  lr_sk : l_sk l = en_sk e;
  lr_closed : l_closed l = en_closed e;
  lr_stack : Forall2 frel (en_stack e) (l_stack l);
}.

Lemma lrel_init prefix : lrel (enc_new_to_vec prefix) (l_init (lenZ prefix)).
Proof. constructor; try reflexivity. constructor. Qed.

Lemma enc_write_len c e v w k e' off : enc_write c e v w k = Ret (e', off) ->
  lenZ (en_out e') = even_up (lenZ (en_out e) + (if w && negb k then Z.max (fleece_size v) 4 else fleece_size v)).
Proof.
  unfold enc_write. set (n := if w && negb k then Z.max (fleece_size v) 4 else fleece_size v).
  destruct (write_to (c_dbg c) v n w) as [[bs|]| | |]; try discriminate. cbn [bind].
  destruct (lenZ bs =? n) eqn:E; [|discriminate]. intros H. injection H as <- <-.
  cbn [set_out en_out]. rewrite pad_even_len, lenZ_app. unfold even_up. apply Z.eqb_eq in E. rewrite E. reflexivity.
Qed.

Lemma header_size_hdr n : header_size n = hdr_size n.
Proof.
  unfold header_size, hdr_size, hdr_fleece_size, even_up, VARINT_COUNT. destruct (2047 <=? n) eqn:E.
  - replace (0x07FF <=? n) with true by lia. lia.
  - replace (0x07FF <=? n) with false by lia. reflexivity.
Qed.

Lemma sized_not_ptr v s : wf_enc v -> to_sized_value v = Some s -> is_ptr s = false.
Proof.
  induction v as [t z|b|b|b| | |s0|s0| |w IH|s0|d n]; cbn [wf_enc to_sized_value];
    intros Hw H; try discriminate; try contradiction; auto.
  - assert (Hc : sclean (pointer_offset s + 1) s) by (apply (sized_clean _ (EInt t z)); [exact Hw|reflexivity|exact H]).
    unfold sclean in Hc. destruct (is_ptr s); [lia|reflexivity].
  - destruct b; injection H as <-; reflexivity.
  - injection H as <-; reflexivity.
  - injection H as <-; reflexivity.
  - destruct s0 as [|a [|b s0]]; try discriminate; injection H as <-; reflexivity.
  - destruct s0 as [|a [|b s0]]; try discriminate; injection H as <-; reflexivity.
  - injection H as <-; reflexivity.
Qed.

(* ---------- pushing ---------- *)

Lemma flat_map_snoc {A B} (f : A -> list B) l x : flat_map f (l ++ [x]) = flat_map f l ++ f x.
Proof. rewrite flat_map_app. cbn [flat_map]. rewrite app_nil_r. reflexivity. Qed.
Lemma rev_ptr l s : rev (flat_map ptr_of l ++ ptr_of s) =
  opt_cons (if is_ptr s then Some (pointer_offset s) else None) (rev (flat_map ptr_of l)).
Proof. rewrite rev_app_distr. unfold ptr_of. destruct (is_ptr s); reflexivity. Qed.

Lemma push_frel e s e' r st sh p : push_value e s = (e', r) -> Forall2 frel (en_stack e) st ->
  p = (if is_ptr s then Some (pointer_offset s) else None) -> (sh = false -> sclean 0 s) ->
  Forall2 frel (en_stack e') (l_add st p sh).
Proof.
  unfold push_value. intros H Hst Hp Hs. remember (en_stack e) as es eqn:Ees. destruct Hst as [|cc f cs st Hc Hst].
  { injection H as <- <-. cbn [l_add]. rewrite <- Ees. constructor. }
  inversion Hc as [vs sh0 Hcl|vs nk sh0 Hcl]; subst cc f.
  - injection H as <- <-. cbn [set_stack en_stack l_add]. constructor; [|exact Hst].
    replace (lenZ vs + 1) with (lenZ (vs ++ [s])) by (rewrite lenZ_app; reflexivity).
    replace (opt_cons p (rev (flat_map ptr_of vs))) with (rev (flat_map ptr_of (vs ++ [s])))
      by (rewrite flat_map_snoc, rev_ptr, Hp; reflexivity).
    apply fr_arr. intros Ho. apply Bool.orb_false_elim in Ho as [H1 H2]. apply Forall_app. auto.
  - destruct nk as [k|]; injection H as <- <-.
    + cbn [set_stack en_stack l_add option_map]. constructor; [|exact Hst].
      replace (lenZ vs + 1) with (lenZ (vs ++ [mk_delem k s])) by (rewrite lenZ_app; reflexivity).
      replace (opt_cons p (rev (flat_map (fun d => ptr_of (de_val d)) vs)))
        with (rev (flat_map (fun d => ptr_of (de_val d)) (vs ++ [mk_delem k s]))).
      2:{ rewrite flat_map_snoc, rev_app_distr. cbn [de_val]. rewrite Hp. unfold ptr_of at 1. destruct (is_ptr s); reflexivity. }
      replace (opt_cons (kpos k) (rev (flat_map (fun d => kptr_of (de_key d)) vs)))
        with (rev (flat_map (fun d => kptr_of (de_key d)) (vs ++ [mk_delem k s]))).
      2:{ rewrite flat_map_snoc, rev_app_distr. cbn [de_key]. unfold kptr_of at 1. destruct (kpos k); reflexivity. }
      apply (fr_dict (vs ++ [mk_delem k s]) None). intros Ho. apply Bool.orb_false_elim in Ho as [H1 H2].
      destruct (Hcl H1) as [H3 H4]. split; [|exact I]. rewrite dict_slots_app. apply Forall_app. split; [exact H3|].
      cbn [dict_slots de_key de_val]. auto.
    + rewrite <- Ees. cbn [l_add option_map]. constructor; [exact Hc|exact Hst].
Qed.
Lemma push_key_frel e k e' r st sh : push_key e k = (e', r) -> Forall2 frel (en_stack e) st ->
  (sh = false -> sclean 0 (dk_sized k)) -> Forall2 frel (en_stack e') (l_add_key st (kpos k) sh).
Proof.
  unfold push_key. intros H Hst Hs. remember (en_stack e) as es eqn:Ees. destruct Hst as [|cc f cs st Hc Hst].
  { injection H as <- <-. cbn [l_add_key]. rewrite <- Ees. constructor. }
  inversion Hc as [vs sh0 Hcl|vs nk sh0 Hcl]; subst cc f.
  - injection H as <- <-. rewrite <- Ees. cbn [l_add_key]. constructor; [exact Hc|exact Hst].
  - destruct nk as [k0|]; injection H as <- <-.
    + rewrite <- Ees. cbn [l_add_key option_map]. constructor; [exact Hc|exact Hst].
    + cbn [set_stack en_stack l_add_key option_map]. constructor; [|exact Hst].
      apply (fr_dict vs (Some k)). intros Ho. apply Bool.orb_false_elim in Ho as [H1 H2].
      destruct (Hcl H1) as [H3 _]. split; [exact H3|auto].
Qed.

(* ---------- the width of the slots ---------- *)

Lemma array_wide_eq dbg n vs : n < two32 -> Forall (swf n) vs ->
  array_should_be_wide dbg n vs = Ret (existsb (fun p => MAX_NARROW <? n - p) (flat_map ptr_of vs)).
Proof.
  intros Hn H. induction H as [|s vs Hs Hr IH]; [reflexivity|]. cbn [array_should_be_wide flat_map]. unfold ptr_of at 1.
  destruct Hs as [(b0 & b1 & -> & Hsc)|(off & -> & Ho & _ & Hlt)].
  - rewrite scalar_not_ptr by exact Hsc. exact IH.
  - rewrite is_ptr_mkptr by exact Ho. unfold actual_pointer_offset. rewrite pointer_offset_mkptr by exact Ho.
    unfold usize_sub. destruct (off <=? n) eqn:E; [|lia]. cbn [bind app existsb]. rewrite wrap_u32_id by lia.
    destruct (MAX_NARROW <? n - off); [reflexivity|exact IH].
Qed.
Lemma dict_wide_eq dbg n : n < two32 -> forall vs len, n <= len -> len + 2 * lenZ vs < two64 ->
  Forall (fun d => kgood n (de_key d) /\ swf n (de_val d)) vs ->
  dict_should_be_wide dbg n len vs =
    Ret (existsb (fun p => MAX_NARROW <? n - p) (flat_map (fun d => ptr_of (de_val d)) vs)
         || existsb (fun p => MAX_NARROW <? p) (flat_map (fun d => kptr_of (de_key d)) vs)).
Proof.
  intros Hn. induction vs as [|d vs IH]; intros len Hlen Hmx H; [reflexivity|].
  rewrite lenZ_cons in Hmx. pose proof (lenZ_nonneg vs).
  inversion H as [|? ? [Hk Hv] Hr]; subst. specialize (IH (len + 2) ltac:(lia) ltac:(lia) Hr).
  cbn [dict_should_be_wide flat_map].
  set (V := existsb _ (flat_map (fun d => ptr_of (de_val d)) vs)) in *.
  set (K := existsb _ (flat_map (fun d => kptr_of (de_key d)) vs)) in *.
  rewrite !existsb_app. fold V K.
  set (v := existsb _ (ptr_of (de_val d))). set (k := existsb _ (kptr_of (de_key d))).
  assert (Hcv : (if is_ptr (de_val d) then
          off <- actual_pointer_offset dbg (de_val d) n ;;
          if MAX_NARROW <? off then Ret true
          else dict_should_be_wide dbg n (len + 2) vs
        else dict_should_be_wide dbg n (len + 2) vs) = Ret (v || (V || K))).
  { rewrite IH. unfold v, ptr_of. destruct Hv as [(b0 & b1 & -> & Hsc)|(off & -> & Ho & _ & Hlt)].
    - rewrite scalar_not_ptr by exact Hsc. reflexivity.
    - rewrite is_ptr_mkptr by exact Ho. unfold actual_pointer_offset. rewrite pointer_offset_mkptr by exact Ho.
      unfold usize_sub. destruct (off <=? n) eqn:E; [|lia]. cbn [bind existsb]. rewrite wrap_u32_id by lia.
      destruct (MAX_NARROW <? n - off); reflexivity. }
  rewrite Hcv. unfold k, kptr_of. destruct (de_key d) as [s|i|s off]; cbn [kpos opt_cons existsb kgood] in *;
    try (f_equal; destruct v, V, K; reflexivity).
  unfold usize_sub. destruct (off <=? len) eqn:E; [|lia]. cbn [bind].
  destruct (len - off <=? len) eqn:E2; [|lia]. cbn [bind]. replace (len - (len - off)) with off by lia.
  destruct (MAX_NARROW <? off); cbn [orb]; f_equal; destruct v, V, K; reflexivity.
Qed.

Lemma arr_fits_wide_true : forall vs q, arr_fits true q vs = true.
Proof. induction vs as [|s vs IH]; intros q; [reflexivity|]. cbn [arr_fits slot_fits orb andb]. apply IH. Qed.
Lemma arr_fits_narrow hi : forall vs q, Forall (sclean 0) vs ->
  (forall s, In s vs -> is_ptr s = true -> hi - pointer_offset s <= MAX_NARROW) -> q + 2 * lenZ vs - 2 <= hi ->
  arr_fits false q vs = true.
Proof.
  induction vs as [|s vs IH]; intros q Hc Hp Hq; [reflexivity|]. inversion Hc as [|? ? H1 H2]; subst.
  rewrite lenZ_cons in Hq. pose proof (lenZ_nonneg vs). cbn [arr_fits]. apply andb_true_intro. split.
  - unfold slot_fits, sclean in *. cbn [orb]. specialize (Hp s (or_introl eq_refl)). destruct (is_ptr s); [specialize (Hp eq_refl)|]; lia.
  - apply IH; [exact H2| |cbn [width_of]; lia]. intros; apply Hp; [right|]; assumption.
Qed.
Lemma in_ptr_of s l : In s l -> is_ptr s = true -> In (pointer_offset s) (flat_map ptr_of l).
Proof. intros H E. apply in_flat_map. exists s. split; [exact H|]. unfold ptr_of. rewrite E. left. reflexivity. Qed.

Section KP.
Context {SP : KeyPred}.

Lemma dict_good D tb vs kts : Forall2 (erep D tb) vs kts ->
  Forall (fun d => kgood (lenZ D) (de_key d) /\ swf (lenZ D) (de_val d)) vs.
Proof.
  intros Hvs. induction Hvs as [|d kt l m [[kk Hk] Hs] H IH]; [constructor|].
  constructor; [|exact IH]. split; [eapply krep_kgood; eauto|]. apply srep_swf in Hs as [Hs _]. exact Hs.
Qed.

Lemma in_dict_slots vs s n : Forall (fun d => kgood n (de_key d) /\ swf n (de_val d)) vs -> n <= MAX_WIDE ->
  In s (dict_slots vs) -> is_ptr s = true ->
  In (pointer_offset s) (flat_map (fun d => ptr_of (de_val d)) vs ++ flat_map (fun d => kptr_of (de_key d)) vs).
Proof.
  intros Hg Hn Hi Hp. apply in_or_app. induction Hg as [|d vs [Hk Hv] Hr IH]; cbn [dict_slots flat_map] in *; [contradiction|].
  destruct Hi as [<-|[<-|Hi]].
  - right. apply in_or_app. left. destruct (de_key d) as [s0|i|s0 off]; cbn [dk_sized kgood kptr_of kpos opt_cons] in *.
    + rewrite (proj2 Hk) in Hp. discriminate.
    + exfalso. destruct (dk_shared_swf 0 i Hk) as (Hs & _ & _).
      destruct Hs as [(b0 & b1 & E & Hsc)|(off & _ & Hbad1 & _ & Hbad)]; [|lia].
      rewrite E, scalar_not_ptr in Hp by exact Hsc. discriminate.
    + rewrite pointer_offset_mkptr by lia. left. reflexivity.
  - left. apply in_or_app. left. unfold ptr_of. rewrite Hp. left. reflexivity.
  - specialize (IH Hi). destruct IH; [left|right]; apply in_or_app; right; assumption.
Qed.

(** The width the encoder chooses, and what the layout promises. *)
Definition top_wide (c : cfg) (e : enc) : outcome bool :=
  match en_stack e with
  | CArr vs :: _ => array_should_be_wide (c_dbg c) (lenZ (en_out e)) vs
  | CDict vs _ :: _ => dict_should_be_wide (c_dbg c) (lenZ (en_out e)) (lenZ (en_out e)) vs
  | [] => Ret false
  end.

Lemma layout_top c e b l f st :
  sort_ok (c_sort c) -> inv e b -> lrel e l -> pot e <= MAX_WIDE -> l_stack l = f :: st ->
  top_wide c e = Ret (l_wide (l_pos l) f) /\ (l_fits (l_pos l) f = true -> top_fits c e = true).
Proof.
  intros Hso [Hev Hst Hpd Hrt] [Hpos _ _ Hfr] Hmx Hl. unfold top_fits, top_wide, pot in *. rewrite Hl in Hfr.
  inversion Hfr as [|cc ? cs ? Hc Hcs Ee]; subst. rewrite <- Ee in *. rewrite Hpos.
  pose proof (stack_pot_nonneg cs). pose proof (lenZ_nonneg (en_out e)). cbn [stack_pot] in *.
  inversion Hst as [|? fx ? fr Hcr _ Eb]; subst.
  inversion Hc as [vs sh Hcl|vs nk sh Hcl]; subst cc f; cbn [coll_slots] in *; pose proof (lenZ_nonneg vs);
    unfold l_fits; cbn [l_wide l_count l_slots]; rewrite !existsb_rev, ?header_size_hdr.
  - inversion Hcr; subst. destruct (Forall2_swf _ _ _ _ ltac:(eassumption)) as [Hswf _].
    rewrite array_wide_eq by (exact Hswf || (unfold two32, MAX_WIDE in *; lia)). split; [reflexivity|].
    set (w := existsb _ _). intros Hf. apply orb_prop in Hf as [->|Hf]; [apply arr_fits_wide_true|].
    destruct w; [apply arr_fits_wide_true|]. apply andb_prop in Hf as [Hsh Hf]. apply negb_true_iff in Hsh.
    rewrite forallb_forall in Hf.
    apply (arr_fits_narrow (lenZ (en_out e) + hdr_size (lenZ vs) + 2 * lenZ vs - 2)); [auto| |lia].
    intros s Hs Hp. pose proof (Hf _ (proj1 (in_rev _ _) (in_ptr_of s vs Hs Hp))). lia.
  - assert (Hg : Forall (fun d => kgood (lenZ (en_out e)) (de_key d) /\ swf (lenZ (en_out e)) (de_val d)) vs).
    { inversion Hcr; subst; eapply dict_good; eassumption. }
    assert (Hn : lenZ (en_out e) + 8 * lenZ vs <= MAX_WIDE) by (destruct nk; lia).
    rewrite dict_wide_eq by (exact Hg || (unfold two32, two64, MAX_WIDE in *; lia)). split; [reflexivity|].
    set (w := existsb _ (flat_map (fun d => ptr_of (de_val d)) vs) || existsb _ (flat_map (fun d => kptr_of (de_key d)) vs)). intros Hf. apply orb_prop in Hf as [->|Hf]; [apply arr_fits_wide_true|].
    destruct w; [apply arr_fits_wide_true|]. apply andb_prop in Hf as [Hsh Hf]. apply negb_true_iff in Hsh.
    rewrite forallb_forall in Hf. destruct (Hso vs) as [Hperm _]. destruct (Hcl Hsh) as [Hcl1 _].
    apply (arr_fits_narrow (lenZ (en_out e) + hdr_size (lenZ vs) + 4 * lenZ vs - 2)).
    + eapply Permutation_dict_slots; eauto.
    + intros s Hs Hp.
      assert (Hg' : Forall (fun d => kgood (lenZ (en_out e)) (de_key d) /\ swf (lenZ (en_out e)) (de_val d)) (c_sort c vs))
        by (eapply Permutation_Forall; eauto).
      pose proof (in_dict_slots _ s _ Hg' ltac:(lia) Hs Hp) as Hi.
      assert (Hi2 : In (pointer_offset s) (rev (flat_map (fun d => ptr_of (de_val d)) vs) ++ rev (flat_map (fun d => kptr_of (de_key d)) vs))).
      { apply in_app_or in Hi. apply in_or_app. rewrite <- !in_rev.
        destruct Hi as [Hi|Hi]; [left|right]; (eapply Permutation_in; [|exact Hi]); apply Permutation_flat_map; apply Permutation_sym; exact Hperm. }
      pose proof (Hf _ Hi2). lia.
    + rewrite dict_slots_len, <- (Permutation_lenZ _ _ Hperm). lia.
Qed.

(* ---------- closing a collection ---------- *)

Lemma finished_layout c e p e' r st : finished_collection c e p = Ret (e', r) ->
  lenZ (en_out e) mod 2 = 0 -> 0 <= p <= lenZ (en_out e) -> lenZ (en_out e) <= MAX_WIDE ->
  Forall2 frel (en_stack e) st ->
  lrel e' (match st with
           | [] => mk_l (lenZ (en_out e) + if lenZ (en_out e) - p <=? MAX_NARROW then 2 else 6) (en_sk e) [] true
           | _ => mk_l (lenZ (en_out e)) (en_sk e) (l_add st (Some p) false) (en_closed e)
           end).
Proof.
  intros H Hev Hp Hmx Hst. unfold finished_collection in H. destruct (en_stack e) as [|top cs] eqn:Est.
  - inversion Hst; subst st. unfold u32_sub in H. rewrite wrap_u32_id in H by (unfold two32, MAX_WIDE in *; lia).
    destruct (p <=? lenZ (en_out e)) eqn:E; [|lia]. cbn [bind] in H. set (off := lenZ (en_out e) - p) in *.
    assert (Ho : 0 <= off <= MAX_WIDE) by lia. unfold MAX_WIDE, MAX_NARROW in *.
    destruct (off <=? 16383) eqn:En.
    + rewrite new_pointer_ok in H by exact Ho.
      destruct (enc_write c e _ _ _) as [[e1 o1]| | |] eqn:E1; try discriminate. cbn [bind fst] in H.
      injection H as <- <-. apply enc_write_len in E1 as El. apply enc_write_grown in E1 as [(G1 & G2 & _) _].
      cbn [andb fleece_size] in El. unfold sized_fleece_size in El.
      assert (Ht : sized_type (mkptr off) = TyPointer).
      { pose proof (is_ptr_mkptr off Ho) as Hq. unfold is_ptr in Hq. destruct (sized_type (mkptr off)); try discriminate. reflexivity. }
      rewrite Ht, pointer_offset_mkptr in El by exact Ho. unfold MAX_NARROW in El. destruct (16383 <? off) eqn:E3; [lia|].
      constructor; cbn [set_closed l_pos l_sk l_closed l_stack en_out en_sk en_closed en_stack]; auto.
      * rewrite El. unfold even_up. lia.
      * rewrite G1, Est. constructor.
    + rewrite (new_pointer_ok off) in H by exact Ho.
      destruct (enc_write c e _ _ _) as [[e1 o1]| | |] eqn:E1; try discriminate. cbn [bind fst] in H.
      rewrite new_pointer_ok in H by (unfold MAX_WIDE; lia).
      destruct (enc_write c e1 _ _ _) as [[e2 o2]| | |] eqn:E2; try discriminate. cbn [bind fst] in H.
      injection H as <- <-. apply enc_write_len in E1 as El. apply enc_write_grown in E1 as [(G1 & G2 & _) _].
      apply enc_write_len in E2 as El2. apply enc_write_grown in E2 as [(G3 & G4 & _) _].
      cbn [andb negb fleece_size] in El, El2.
      assert (Hs : sized_fleece_size (mkptr off) <= 4)
        by (unfold sized_fleece_size; destruct (sized_type (mkptr off)); try lia; destruct (MAX_NARROW <? _); lia).
      change (sized_fleece_size (mkptr 4)) with 2 in El2.
      constructor; cbn [set_closed l_pos l_sk l_closed l_stack en_out en_sk en_closed en_stack]; auto.
      * rewrite El2, El. replace (Z.max (sized_fleece_size (mkptr off)) 4) with 4 by lia. unfold even_up. lia.
      * congruence.
      * rewrite G3, G1, Est. constructor.
  - rewrite new_pointer_ok in H by lia.
    assert (Hpp : is_ptr (mkptr p) = true /\ pointer_offset (mkptr p) = p).
    { split; [apply is_ptr_mkptr|apply pointer_offset_mkptr]; lia. }
    assert (Hgo : forall r2, push_value e (mkptr p) = (e', r2) -> en_out e' = en_out e -> en_sk e' = en_sk e -> en_closed e' = en_closed e ->
       lrel e' (mk_l (lenZ (en_out e)) (en_sk e) (l_add st (Some p) false) (en_closed e))).
    { intros r2 E1 E2 E3 E4. constructor; cbn [l_pos l_sk l_closed l_stack]; try congruence.
      eapply push_frel; [exact E1|rewrite Est; exact Hst| |].
      - destruct Hpp as [-> ->]. reflexivity.
      - intros _. unfold sclean. destruct Hpp as [-> ->]. lia. }
    destruct st as [|f st]; [inversion Hst|].
    unfold push_value in Hgo. rewrite Est in Hgo.
    destruct top as [vs|vs [k|]]; injection H as <- <-; eapply Hgo; reflexivity.
Qed.

Lemma close_layout c e b l f st e' r :
  sort_ok (c_sort c) -> inv e b -> lrel e l -> pot e <= MAX_WIDE -> l_stack l = f :: st ->
  l_fits (l_pos l) f = true ->
  (exists vs cs, en_stack e = CArr vs :: cs /\ end_array c e = Ret (e', r)) \/
  (exists vs cs, en_stack e = CDict vs None :: cs /\ end_dict c e = Ret (e', r)) ->
  lrel e' (l_close l).
Proof.
  intros Hso Hi Hl Hmx Els Hfit Hend.
  destruct (layout_top c e b l f st Hso Hi Hl Hmx Els) as [Hw Htf]. specialize (Htf Hfit).
  destruct Hi as [Hev Hst Hpd Hrt]. destruct Hl as [Hpos Hsk Hcl Hfr].
  unfold l_close. rewrite Els in *. rewrite Hpos, Hsk, Hcl in *. unfold pot in Hmx. unfold top_wide in Hw.
  pose proof (lenZ_nonneg (en_out e)) as H0.
  destruct Hend as [(vs & cs & Est & Er)|(vs & cs & Est & Er)]; rewrite Est in *; inversion Hst as [|? fx ? fr Hcr Hst' Ea Eb]; subst;
    inversion Hfr as [|? ? ? ? Hf1 Hf2]; subst; inversion Hcr; subst; inversion Hf1; subst;
    cbn [stack_pot coll_slots] in Hmx; pose proof (stack_pot_nonneg cs); pose proof (lenZ_nonneg vs);
    pose proof (hdr_size_le (lenZ vs) ltac:(lia) ltac:(lia)) as Hh.
  - destruct (end_array_ok c e (en_sk e) vs ts cs) as (X & t' & lim & Ee & Ht & Hs & Hlim & Hle & Hlb & Hex); auto; try lia.
    rewrite Ee in Er. specialize (Hex _ Hw). pose proof (lenZ_nonneg X).
    set (w := l_wide _ _) in *. cbn [l_count l_slots]. rewrite header_size_hdr.
    apply (finished_layout c _ _ e' r st) in Er; cbn [set_out set_stack en_out en_sk en_stack en_closed] in *;
      rewrite ?lenZ_app in *; auto; try lia.
    replace (lenZ (en_out e) + lenZ X) with (lenZ (en_out e) + hdr_size (lenZ vs) + lenZ vs * (if w then 4 else 2)) in Er
      by (destruct w; cbn [width_of] in Hex; lia).
    exact Er.
  - destruct (end_dict_ok c e (en_sk e) vs kts cs) as (X & t' & lim & Ee & Ht & Hs & Hlim & Hle & Hlb & Hex); auto; try lia.
    rewrite Ee in Er. specialize (Hex _ Hw). pose proof (lenZ_nonneg X).
    set (w := l_wide _ _) in *. cbn [l_count l_slots]. rewrite header_size_hdr.
    apply (finished_layout c _ _ e' r st) in Er; cbn [set_out set_stack en_out en_sk en_stack en_closed] in *;
      rewrite ?lenZ_app in *; auto; try lia.
    replace (lenZ (en_out e) + lenZ X) with (lenZ (en_out e) + hdr_size (lenZ vs) + 2 * lenZ vs * (if w then 4 else 2)) in Er
      by (destruct w; cbn [width_of] in Hex; lia).
    exact Er.
Qed.

(* ---------- one call ---------- *)

Lemma push_value_same e s e' r : push_value e s = (e', r) ->
  en_out e' = en_out e /\ en_sk e' = en_sk e /\ en_closed e' = en_closed e.
Proof. unfold push_value. destruct (en_stack e) as [|[vs|vs [k2|]] st]; intros H; injection H as <- <-; auto. Qed.
Lemma push_key_same e k e' r : push_key e k = (e', r) ->
  en_out e' = en_out e /\ en_sk e' = en_sk e /\ en_closed e' = en_closed e.
Proof. unfold push_key. destruct (en_stack e) as [|[vs|vs [k2|]] st]; intros H; injection H as <- <-; auto. Qed.

Lemma key_outside_layout c e l k e' r : lrel e l -> lenZ (en_out e) <= MAX_WIDE ->
  write_key_pointer c e k = Ret (e', r) -> lrel e' (l_key_outside l k).
Proof.
  intros [Hpos Hsk Hcl Hfr] Hmx H. unfold write_key_pointer in H.
  destruct (enc_write c e _ _ _) as [[e1 o1]| | |] eqn:E; try discriminate. cbn [bind] in H.
  apply enc_write_len in E as El. apply enc_write_grown in E as [(G1 & G2 & G3 & _) ->]. apply Ret_inj in H.
  cbn [andb fleece_size] in El. pose proof (lenZ_nonneg (en_out e)).
  pose proof (push_key_same _ _ _ _ H) as (P1 & P2 & P3).
  unfold l_key_outside. constructor; cbn [l_pos l_sk l_closed l_stack]; try congruence.
  rewrite Hpos. rewrite wrap_u32_id in H by (unfold two32, MAX_WIDE in *; lia).
  change (Some (lenZ (en_out e))) with (kpos (DKPointer k (lenZ (en_out e)))).
  eapply push_key_frel; [exact H|rewrite G1; exact Hfr|].
  intros _. cbn [dk_sized]. unfold sclean. rewrite is_ptr_mkptr, pointer_offset_mkptr by lia. lia.
Qed.

Lemma top_waits st lst : Forall2 frel st lst ->
  top_waits_for_key st = match lst with LDict _ _ _ _ None :: _ => true | _ => false end.
Proof.
  intros H. destruct H as [|cc f cs ls Hc _]; [reflexivity|]. inversion Hc as [vs sh _|vs nk sh _]; subst; [reflexivity|].
  destruct nk; reflexivity.
Qed.

Lemma step_layout c e b o l e' r :
  sort_ok (c_sort c) -> inv e b -> lrel e l -> pot e <= MAX_WIDE -> op_args_wf o -> polite_op b o ->
  l_call_ok l o = true -> enc_step c e o = Ret (e', r) -> lrel e' (l_step (c_ua c) l o).
Proof.
  intros Hso Hi Hl Hmx Hw Hpo Hok H.
  assert (Hlen : lenZ (en_out e) <= MAX_WIDE).
  { unfold pot in Hmx. pose proof (stack_pot_nonneg (en_stack e)). lia. }
  pose proof (lenZ_nonneg (en_out e)) as H0. pose proof Hl as [Hpos Hsk Hcl Hfr].
  destruct o as [k|v|n| | | |t]; cbn [enc_step op_args_wf l_step] in *.
  - unfold write_key in H. destruct (to_sized_value (EStr k)) as [s|] eqn:Es.
    + apply Ret_inj in H. pose proof (push_key_same _ _ _ _ H) as (P1 & P2 & P3).
      constructor; cbn [l_set_stack l_pos l_sk l_closed l_stack]; try congruence.
      change (@None Z) with (kpos (DKInline s)). eapply push_key_frel; [exact H|exact Hfr|discriminate].
    + unfold write_key_long in H. rewrite Hsk. destruct (en_sk e) as [t|] eqn:Esk.
      2:{ eapply key_outside_layout; eauto. }
      destruct (en_stack e) as [|[vs|vs nk] cs] eqn:Est.
      * inversion Hfr as [E1 E2|]; subst. injection H as <- <-. exact Hl.
      * inversion Hfr as [|? ? ? ? Hf1 Hf2]; subst. inversion Hf1; subst. injection H as <- <-. exact Hl.
      * inversion Hfr as [|? ? ? ? Hf1 Hf2 E1 E2]; subst. inversion Hf1; subst.
        rewrite E2. rewrite <- E2 in Hfr. set (ls := l_stack l) in *.
        destruct (encode_and_insert (c_ua c) t k) as [t' i] eqn:Ei.
        assert (Hl1 : lrel (set_sk e (Some t')) (mk_l (l_pos l) (Some t') ls (l_closed l))).
        { constructor; cbn [set_sk l_pos l_sk l_closed l_stack en_out en_sk en_closed en_stack]; auto. rewrite Est, <- E2. exact Hfr. }
        destruct i as [i|]; [|eapply key_outside_layout; [exact Hl1|exact Hlen|exact H]].
        apply Ret_inj in H. pose proof (push_key_same _ _ _ _ H) as (P1 & P2 & P3).
        destruct Hl1 as [L1 L2 L3 L4].
        constructor; cbn [l_set_stack l_pos l_sk l_closed l_stack] in *; try congruence.
        change (@None Z) with (kpos (DKShared i)). eapply push_key_frel; [exact H|exact L4|].
        intros _.
        assert (Hi2 : 0 <= i <= 2047).
        { clear - Ei. unfold encode_and_insert, can_add, sk_len, MAX_KEYS in Ei.
          destruct (lenZ t <? 2048) eqn:E1; cbn [andb negb] in Ei; [|discriminate].
          destruct (negb _); [discriminate|]. pose proof (lenZ_nonneg t).
          destruct (sk_find (zstr_make k) 0 t) as [j|] eqn:Ef; injection Ei as <- <-; [|lia].
          apply sk_find_bounds in Ef as [Hb _]. lia. }
        cbn [dk_sized]. eapply u16_clean; [apply Hi2|apply (dk_shared_swf 0 i Hi2)].
  - unfold write_value in H. remember (en_stack e) as es eqn:Ees. destruct Hfr as [|cc f cs ls Hc Hcs].
    { injection H as <- <-. exact Hl. }
    set (st := f :: ls) in *.
    destruct (to_sized_value v) as [s|] eqn:Es.
    + apply Ret_inj in H. pose proof (push_value_same _ _ _ _ H) as (P1 & P2 & P3).
      constructor; cbn [l_set_stack l_pos l_sk l_closed l_stack]; try congruence.
      eapply push_frel; [exact H|rewrite <- Ees; constructor; assumption| |].
      * rewrite (sized_not_ptr v s Hw Es). reflexivity.
      * intros Hsh. apply negb_false_iff in Hsh. eapply sized_clean; eauto.
    + destruct (enc_write c e v false false) as [[e1 o1]| | |] eqn:E; try discriminate. cbn [bind] in H.
      apply enc_write_len in E as El. apply enc_write_grown in E as [(G1 & G2 & G3 & _) ->].
      rewrite wrap_u32_id in H by (unfold two32, MAX_WIDE in *; lia). rewrite new_pointer_ok in H by lia.
      apply Ret_inj in H. pose proof (push_value_same _ _ _ _ H) as (P1 & P2 & P3). cbn [andb] in El.
      constructor; cbn [l_pos l_sk l_closed l_stack]; try congruence.
      eapply push_frel; [exact H|rewrite G1, <- Ees; constructor; assumption| |].
      * rewrite is_ptr_mkptr, pointer_offset_mkptr by lia. rewrite Hpos. reflexivity.
      * intros _. unfold sclean. rewrite is_ptr_mkptr, pointer_offset_mkptr by lia. lia.
  - unfold begin_array in H. rewrite Hcl. rewrite (top_waits _ _ Hfr) in H.
    destruct (en_closed e) eqn:Ecl; [injection H as <- <-; exact Hl|].
    assert (Hnew : forall e2 (r2 : result unit encode_error), (if two63 <=? n * 4 then Panic else Ret (set_stack e (CArr [] :: en_stack e), Ok tt)) = Ret (e2, r2) ->
      lrel e2 (l_set_stack l (LArr 0 false [] :: l_stack l))).
    { intros e2 r2 E. destruct (two63 <=? n * 4); [discriminate|]. injection E as <- <-.
      constructor; cbn [l_set_stack set_stack l_pos l_sk l_closed l_stack en_out en_sk en_closed en_stack]; try congruence.
      constructor; [|exact Hfr]. apply (fr_arr [] false). intros _. constructor. }
    destruct (l_stack l) as [|[n0 s0 v0|n0 s0 v0 k0 [p0|]] ls]; try (eapply Hnew; exact H). injection H as <- <-. exact Hl.
  - unfold end_array in H.
    destruct (l_stack l) as [|f ls] eqn:Els.
    { inversion Hfr as [E1|]. rewrite <- E1 in H. cbn [stack_pop] in H. injection H as <- <-. rewrite E1. destruct e; exact Hl. }
    inversion Hfr as [|cc ? cs ? Hc Hcs E1]; subst. inversion Hc as [vs sh Hs1|vs nk sh Hs1]; subst.
    + eapply (close_layout c e b l _ ls e' r Hso Hi Hl Hmx Els).
      * unfold l_call_ok in Hok. rewrite Els in Hok. exact Hok.
      * left. exists vs, cs. split; [auto|exact H].
    + rewrite <- E1 in H. destruct nk as [k|].
      * cbn [stack_pop] in H. injection H as <- <-. rewrite E1. destruct e; exact Hl.
      * exfalso. pose proof (i_stack _ _ Hi) as Hst. rewrite <- E1 in Hst. inversion Hst as [|? ? ? ? Hcr Hcr2 Ea Eb]; subst. inversion Hcr; subst.
        cbn [polite_op] in Hpo. rewrite <- Eb in Hpo. exact Hpo.
  - unfold begin_dict in H. rewrite Hcl. rewrite (top_waits _ _ Hfr) in H.
    destruct (en_closed e) eqn:Ecl; [injection H as <- <-; exact Hl|].
    assert (Hnew : forall e2 (r2 : result unit encode_error), Ret (set_stack e (CDict [] None :: en_stack e), Ok tt) = Ret (e2, r2) ->
      lrel e2 (l_set_stack l (LDict 0 false [] [] None :: l_stack l))).
    { intros e2 r2 E. injection E as <- <-.
      constructor; cbn [l_set_stack set_stack l_pos l_sk l_closed l_stack en_out en_sk en_closed en_stack]; try congruence.
      constructor; [|exact Hfr]. apply (fr_dict [] None false). intros _. split; [constructor|exact I]. }
    destruct (l_stack l) as [|[n0 s0 v0|n0 s0 v0 k0 [p0|]] ls]; try (eapply Hnew; exact H). injection H as <- <-. exact Hl.
  - destruct (l_stack l) as [|f ls] eqn:Els.
    { unfold end_dict in H. inversion Hfr as [E1|]. rewrite <- E1 in H. injection H as <- <-. exact Hl. }
    inversion Hfr as [|cc ? cs ? Hc Hcs E1]; subst. inversion Hc as [vs sh Hs1|vs nk sh Hs1]; subst.
    + unfold end_dict in H. rewrite <- E1 in H. injection H as <- <-. exact Hl.
    + destruct nk as [k|]; cbn [option_map] in *.
      * unfold end_dict in H. rewrite <- E1 in H. injection H as <- <-. exact Hl.
      * eapply (close_layout c e b l _ ls e' r Hso Hi Hl Hmx Els).
        -- unfold l_call_ok in Hok. rewrite Els in Hok. exact Hok.
        -- right. exists vs, cs. auto.
  - injection H as <- <-. constructor; cbn [set_shared_keys set_sk l_pos l_sk l_closed l_stack en_out en_sk en_closed en_stack]; auto.
Qed.

(* ---------- runs ---------- *)

Lemma layout_call_ok c e b l o :
  sort_ok (c_sort c) -> inv e b -> lrel e l -> pot e <= MAX_WIDE -> good_op o -> polite_op b o ->
  keys_ok (has_sk e) [o] -> (forall k, o = OpKey k -> key_as_string c (en_sk e) k -> string_key k) ->
  l_call_ok l o = true -> call_ok c e b o.
Proof.
  intros Hso Hi Hl Hmx Hg Hp Hk Hs Hok.
  assert (Hfit : forall f ls, l_stack l = f :: ls -> l_fits (l_pos l) f = true -> top_fits c e = true).
  { intros f ls E. apply (layout_top c e b l f ls Hso Hi Hl Hmx E). }
  pose proof (i_stack _ _ Hi) as Hst. pose proof (lr_stack _ _ Hl) as Hfr.
  destruct o as [k|v|n| | | |t]; cbn [call_ok good_op polite_op keys_ok] in *.
  - split; [exact Hg|]. destruct Hk as [Hk _]. split; [|split; [exact Hp|]].
    + intros Hne. apply Hk. unfold has_sk. destruct (en_sk e); congruence.
    + apply (Hs k eq_refl).
  - tauto.
  - assumption.
  - destruct (b_stack b) as [|[ts|kts [k2|]] fr]; auto. unfold l_call_ok in Hok.
    remember (en_stack e) as es eqn:Ees. destruct Hfr as [|cc f cs ls Hc Hcs]; [inversion Hst|].
    inversion Hst as [|? ? ? ? Hcr _]; subst. inversion Hcr; subst. inversion Hc; subst.
    eapply Hfit; [|exact Hok]. pose proof (lr_stack _ _ Hl) as Hx. rewrite <- Ees in Hx.
    inversion Hx as [|? ? ? ? Hx1 Hx2 E1 E2]. reflexivity.
  - assumption.
  - destruct (b_stack b) as [|[ts|kts [k2|]] fr]; auto. unfold l_call_ok in Hok.
    remember (en_stack e) as es eqn:Ees. destruct Hfr as [|cc f cs ls Hc Hcs]; [inversion Hst|].
    inversion Hst as [|? ? ? ? Hcr _]; subst. inversion Hcr; subst. inversion Hc; subst.
    eapply Hfit; [|exact Hok]. reflexivity.
  - unfold has_sk in Hk. destruct (en_sk e); [destruct Hk; discriminate|]. cbn. auto.
Qed.

Lemma keys_ok_head sh o ops : keys_ok sh (o :: ops) -> keys_ok sh [o].
Proof. destruct o; cbn [keys_ok]; tauto. Qed.
Lemma keys_ok_next c e o e' r ops : enc_step c e o = Ret (e', r) -> keys_ok (has_sk e) (o :: ops) -> keys_ok (has_sk e') ops.
Proof.
  intros H Hk. apply step_ext in H as (_ & Hsk & _). unfold has_sk in *.
  destruct o as [k|v|n| | | |t]; cbn [keys_ok] in Hk;
    try (replace (match en_sk e' with Some _ => true | None => false end)
          with (match en_sk e with Some _ => true | None => false end);
         [tauto|]; destruct (en_sk e), (en_sk e'); try reflexivity; exfalso;
         [assert (Hx : @Some shared_keys s = None) by (apply Hsk; reflexivity); discriminate Hx
         |assert (Hx : @Some shared_keys s = None) by (apply Hsk; split; [reflexivity|intros; discriminate]); discriminate Hx]).
  destruct (en_sk e'); [tauto|]. exfalso. apply (proj2 (proj1 Hsk eq_refl) t). reflexivity.
Qed.

Lemma layout_closes c : sort_ok (c_sort c) -> forall f e b l,
  inv e b -> lrel e l -> pot e <= MAX_WIDE -> (length (en_stack e) <= f)%nat -> l_finish_ok f l = true ->
  forall f', closes_ok f' c e.
Proof.
  intros Hso. induction f as [|f IH]; intros e b l Hi Hl Hmx Hf Hok [|f']; cbn [closes_ok]; auto.
  - destruct (en_stack e); [exact I|cbn in Hf; lia].
  - destruct (en_stack e) as [|top cs] eqn:Est; [exact I|]. cbn [length] in Hf.
    pose proof (lr_stack _ _ Hl) as Hfr. rewrite Est in Hfr.
    inversion Hfr as [|? fx ? ls Hc Hcs E1 Els]; subst. symmetry in Els.
    cbn [l_finish_ok] in Hok. rewrite Els in Hok. apply andb_prop in Hok as [Hfit Hok].
    unfold l_drop in Hok. rewrite Els in Hok.
    inversion Hc as [vs sh Hcl|vs nk sh Hcl]; subst.
    + destruct (layout_top c e b l _ ls Hso Hi Hl Hmx Els) as [_ Htf]. specialize (Htf Hfit).
      split; [exact Htf|]. intros e' r H.
      pose proof (i_stack _ _ Hi) as Hst. rewrite Est in Hst. inversion Hst as [|? gx ? fr Hx Hy Hz Eb]; subst.
      inversion Hx; subst.
      destruct (close_array c e b ts fr Hi (eq_sym Eb) Htf Hmx) as (e1 & E & Hi1 & Hp1 & Hn1). rewrite H in E. injection E as <- ->.
      assert (Hl1 : lrel e' (l_close l)).
      { eapply (close_layout c e b l _ ls e' (Ok tt) Hso Hi Hl Hmx Els Hfit). left. exists vs, cs. auto. }
      eapply IH; [exact Hi1|exact Hl1|lia| |exact Hok]. rewrite Est in Hn1. cbn [length] in Hn1. lia.
    + cbv zeta. set (e0 := set_stack e (CDict vs None :: cs)).
      destruct (drop_pending e b vs nk cs Hi Est) as (kts & fr & pk & Eb & Hr & Hi0 & Hp0). fold e0 in Hi0, Hp0.
      set (l0 := l_set_stack l _) in Hok.
      assert (Hl0 : lrel e0 l0).
      { destruct Hl as [L1 L2 L3 L4]. constructor; cbn [e0 l0 set_stack l_set_stack l_pos l_sk l_closed l_stack en_out en_sk en_closed en_stack]; auto.
        constructor; [|exact Hcs]. apply (fr_dict vs None sh). intros Hsh. destruct (Hcl Hsh) as [H1 _]. split; [exact H1|exact I]. }
      assert (Hfit0 : l_fits (l_pos l0) (LDict (lenZ vs) sh (rev (flat_map (fun d => ptr_of (de_val d)) vs)) (rev (flat_map (fun d => kptr_of (de_key d)) vs)) None) = true)
        by exact Hfit.
      destruct (layout_top c e0 _ l0 _ ls Hso Hi0 Hl0 ltac:(lia) eq_refl) as [_ Htf]. specialize (Htf Hfit0).
      split; [exact Htf|]. intros e' r H.
      destruct (close_dict c e0 _ kts fr Hso Hi0 eq_refl Htf ltac:(lia)) as (e1 & E & Hi1 & Hp1 & Hn1). rewrite H in E. injection E as <- ->.
      assert (Hl1 : lrel e' (l_close l0)).
      { eapply (close_layout c e0 _ l0 _ ls e' (Ok tt) Hso Hi0 Hl0 ltac:(lia) eq_refl Hfit0). right. exists vs, cs. auto. }
      eapply IH; [exact Hi1|exact Hl1|lia| |exact Hok].
      cbn [e0 set_stack en_stack length] in Hn1. lia.
Qed.

Lemma layout_calls c : sort_ok (c_sort c) -> forall ops e b l,
  inv e b -> lrel e l -> Forall good_op ops -> polite b ops -> keys_ok (has_sk e) ops -> strings_ok c e ops ->
  pot e + ops_size ops <= MAX_WIDE -> l_ops_ok (c_ua c) l ops = true ->
  calls_ok c e b ops /\ forall e' rs, enc_run c e ops = Ret (e', rs) -> forall f, closes_ok f c e'.
Proof.
  intros Hs. induction ops as [|o ops IH]; intros e b l Hi Hl Hg Hp Hk Hso Hw Hok; cbn [calls_ok enc_run l_ops_ok] in *.
  { split; [exact I|]. intros e' rs H. injection H as <- <-.
    eapply (layout_closes c Hs (length (l_stack l)) e b l Hi Hl); [unfold ops_size in Hw; cbn [fold_right] in Hw; lia| |exact Hok].
    pose proof (Forall2_lenZ _ _ _ (lr_stack _ _ Hl)) as Hll. unfold lenZ in Hll. lia. }
  pose proof (good_ops_size _ Hg) as Hpos. inversion Hg as [|? ? Hg1 Hg2]; subst. cbn [polite] in Hp. destruct Hp as [Hp1 Hp2].
  apply andb_prop in Hok as [Hok1 Hok2].
  pose proof (good_ops_size _ Hg2) as Hpos2.
  assert (Hrest : 0 <= ops_size ops).
  { clear -Hpos2. induction ops as [|x l IHl]; cbn [ops_size fold_right]; [lia|].
    pose proof (Hpos2 x (or_introl eq_refl)). assert (0 <= ops_size l) by (apply IHl; intros; apply Hpos2; right; assumption).
    unfold ops_size in *. lia. }
  change (ops_size (o :: ops)) with (op_size o + ops_size ops) in *.
  pose proof (Hpos o (or_introl eq_refl)) as Ho.
  assert (Hcall : call_ok c e b o).
  { eapply layout_call_ok; eauto; try lia.
    - eapply keys_ok_head; eauto.
    - intros k -> Hks. eapply strings_ok_here; eauto. }
  assert (Ha : op_args_wf o) by (destruct o; cbn [op_args_wf good_op] in *; tauto).
  pose proof (step_ok c e b o Hs Hi Hcall ltac:(lia)) as Hst. unfold step_rel in Hst.
  assert (Hnext : forall e' r, enc_step c e o = Ret (e', r) ->
     calls_ok c e' (match b_step b o with Ok b' => b' | Err _ => b end) ops /\
     forall e2 rs, enc_run c e' ops = Ret (e2, rs) -> forall f, closes_ok f c e2).
  { intros e' r H.
    assert (Hl' : lrel e' (l_step (c_ua c) l o)) by (eapply step_layout; eauto; lia).
    assert (Hso' : strings_ok c e' ops) by (eapply strings_ok_next; eauto).
    assert (Hk' : keys_ok (has_sk e') ops) by (eapply keys_ok_next; eauto).
    destruct (b_step b o) as [b'|er]; destruct Hst as (e1 & E1 & Hi1 & Hp1'); rewrite H in E1; injection E1 as -> ->;
      (eapply IH; eauto; lia). }
  split.
  - split; [exact Hcall|]. intros e' r H. apply (Hnext e' r H).
  - intros e' rs H. destruct (enc_step c e o) as [[e1 r1]| | |] eqn:E; try discriminate. cbn [bind fst] in H.
    destruct (enc_run c e1 ops) as [[e2 r2]| | |] eqn:E2; try discriminate. cbn [bind fst snd] in H. injection H as <- <-.
    eapply (proj2 (Hnext _ _ eq_refl)); eauto.
Qed.

(** Documents of any size. *)
Theorem any_document c prefix ops :
  sort_ok (c_sort c) -> lenZ prefix mod 2 = 0 ->
  Forall good_op ops -> keys_ok false ops -> polite b_init ops ->
  strings_ok c (enc_new_to_vec prefix) ops ->
  layout_ok (c_ua c) (lenZ prefix) ops -> lenZ prefix + ops_size ops <= MAX_WIDE ->
  exists e' D, enc_run c (enc_new_to_vec prefix) ops = Ret (e', snd (b_run b_init ops)) /\
    finish c e' = Ret (prefix ++ D) /\ lenZ D mod 2 = 0 /\ lenZ D <= ops_size ops /\
      forall t, b_finish (fst (b_run b_init ops)) = Some t ->
      exists v t', tsim t t' /\
      forall dbg base sk, 0 <= base -> base + lenZ (prefix ++ D) < two64 ->
        let m := mk_env dbg base (prefix ++ D) sk in
        from_bytes m = Ret (Ok v) /\ from_bytes_unchecked m = Ret v /\
          vstored m (en_sk e') t' v.
Proof.
  intros Hs Hev Hg Hk Hp Hso Hl Hw. destruct Hl as [[Hpl Hsz]|Hl]; [apply small_document; assumption|].
  pose proof (good_ops_size ops Hg) as Hpos.
  assert (Hp0 : pot (enc_new_to_vec prefix) = lenZ prefix) by (unfold pot; cbn [enc_new_to_vec en_out en_stack stack_pot fold_right]; lia).
  destruct (layout_calls c Hs ops _ _ _ (inv_init prefix Hev) (lrel_init prefix) Hg Hp Hk Hso ltac:(lia) Hl) as [Hcalls Hcl].
  destruct (document c prefix ops Hs Hev Hcalls Hpos Hw) as (e' & Er & Hi & Hfin).
  destruct Hfin as (D & H1 & H2 & H3 & H4); [eapply Hcl; eauto|].
  exists e', D. auto 6.
Qed.
End KP.

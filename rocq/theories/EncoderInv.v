(** The encoder refines the abstract builder (BuilderSpec.v), call by call. *)
From Verif Require Import Prelude Lib Varint VarintProofs Utf8 Float SharedKeys
  Decode Read Encodable Encoder BuilderSpec Holds Repr EncodableProofs Stored StoredRead SlotProofs
  EncoderProofs.
From Coq Require Import ZifyBool ZifyNat ZifyN Sorted Permutation.
Ltac Zify.zify_post_hook ::= Z.div_mod_to_equations.

Section KP.
Context {SP : KeyPred}.

(* ---------- a finished document ---------- *)

Definition root_tail (off : Z) : list Z :=
  if off <=? MAX_NARROW then ptr_bytes false off else ptr_bytes true off ++ ptr_bytes false 4.

Definition rooted (D : list Z) (tb : option shared_keys) (t : tree) : Prop :=
  exists t' D0 p lim, tsim t t' /\ stored D0 tb t' p lim /\ lenZ D0 mod 2 = 0 /\
    lenZ D0 - p <= MAX_WIDE /\ D = D0 ++ root_tail (lenZ D0 - p).

Lemma rooted_ext D tb tb' t : sk_ext tb tb' -> rooted D tb t -> rooted D tb' t.
Proof.
  intros Hx (t' & D0 & p & lim & H1 & H2 & H3 & H4 & H5). exists t', D0, p, lim.
  split; [exact H1|]. split; [eapply stored_ext; eauto|]. auto.
Qed.

(** The root is found through the pointers at the end. *)
Lemma tail_read e D0 p :
  e_data e = D0 ++ root_tail (lenZ D0 - p) -> env_ok e ->
  0 <= p < lenZ D0 -> p mod 2 = 0 -> lenZ D0 mod 2 = 0 -> lenZ D0 - p <= MAX_WIDE ->
  nonptr e (V p (lenZ D0 - p)) ->
  find_root e = Ret (Ok (V p (lenZ D0 - p))) /\ from_bytes_unchecked e = Ret (V p (lenZ D0 - p)).
Proof.
  intros HD Hok [Hp0 Hp1] Hpe Hev Hmx Hnp. set (off := lenZ D0 - p) in *.
  unfold root_tail in HD. unfold MAX_WIDE, MAX_NARROW in *.
  assert (Hoe : off mod 2 = 0) by (unfold off; lia).
  assert (Hfu : exists f, fuel_of e = S (S f)) by (exists (4 * length (e_data e))%nat; reflexivity).
  destruct Hfu as [f Hfu].
  destruct (off <=? 16383) eqn:En.
  - assert (Hlen : lenZ (e_data e) = lenZ D0 + 2) by (rewrite HD, lenZ_app, ptr_bytes_len; reflexivity).
    assert (Hh : holds (e_data e) (lenZ D0) (ptr_bytes false off)) by (rewrite HD; apply holds_end).
    assert (Hty : value_type e (V (lenZ D0) 2) = Ret TyPointer).
    { destruct (ptr_bytes_head false off) as (b & r & Eb & Hb); [unfold ptr_limit; lia|].
      rewrite Eb in Hh. rewrite (holds_type _ _ _ _ _ Hh) by lia. f_equal. apply type_pointer; lia. }
    assert (Hpq : p = lenZ D0 - off) by (unfold off; lia).
    assert (Hd1 : deref_checked (fuel_of e) e (V (lenZ D0) 2) false = Ret (Ok (V p off))).
    { rewrite Hfu, Hpq. apply (deref_checked_ok e (lenZ D0) 2 off false); try assumption; try lia.
      - unfold ptr_limit; lia.
      - cbn; lia.
      - rewrite <- Hpq. exact Hnp. }
    assert (Hd2 : deref_unchecked (fuel_of e) e (V (lenZ D0) 2) false = Ret (V p off)).
    { rewrite Hfu, Hpq. apply (deref_unchecked_ok e (lenZ D0) 2 off false); try assumption; try lia.
      - unfold ptr_limit; lia.
      - cbn; lia.
      - rewrite <- Hpq. exact Hnp. }
    split.
    + unfold find_root. rewrite Hlen. replace (lenZ D0 + 2 - 2) with (lenZ D0) by lia.
      destruct ((lenZ D0 + 2 =? 0) || negb ((lenZ D0 + 2) mod 2 =? 0)) eqn:E; [lia|].
      rewrite Hty; cbn [bind vtype_eqb]. exact Hd1.
    + unfold from_bytes_unchecked. rewrite Hlen. replace (lenZ D0 + 2 - 2) with (lenZ D0) by lia.
      destruct (lenZ D0 + 2 <? 2) eqn:E; [lia|]. rewrite Hty; cbn [bind vtype_eqb]. exact Hd2.
  - assert (Hlen : lenZ (e_data e) = lenZ D0 + 6) by (rewrite HD, !lenZ_app, !ptr_bytes_len; cbn [width_of]; lia).
    assert (Hh : holds (e_data e) (lenZ D0) (ptr_bytes true off ++ ptr_bytes false 4)) by (rewrite HD; apply holds_end).
    pose proof (holds_app_l _ _ _ _ Hh) as Hh1.
    assert (Hh2 : holds (e_data e) (lenZ D0 + 4) (ptr_bytes false 4)).
    { rewrite HD, app_assoc. replace (lenZ D0 + 4) with (lenZ (D0 ++ ptr_bytes true off))
        by (rewrite lenZ_app, ptr_bytes_len; reflexivity). apply holds_end. }
    assert (Hty : value_type e (V (lenZ D0 + 4) 2) = Ret TyPointer).
    { change (ptr_bytes false 4) with [128; 2] in Hh2. rewrite (holds_type _ _ _ _ _ Hh2) by lia. reflexivity. }
    assert (Hty2 : value_type e (V (lenZ D0) 4) = Ret TyPointer).
    { destruct (ptr_bytes_head true off) as (b & r & Eb & Hb); [unfold ptr_limit; lia|].
      rewrite Eb in Hh1. rewrite (holds_type _ _ _ _ _ Hh1) by lia. f_equal. apply type_pointer; lia. }
    assert (Hpq : p = lenZ D0 - off) by (unfold off; lia).
    assert (Hsub : lenZ D0 + 4 - 4 = lenZ D0) by lia.
    assert (Hd1 : deref_checked (fuel_of e) e (V (lenZ D0 + 4) 2) false = Ret (Ok (V p off))).
    { rewrite Hfu. rewrite (deref_checked_aux e (lenZ D0 + 4) 2 4 false) with (ty := TyPointer); try assumption; try lia.
      - cbn [vtype_eqb]. rewrite Hsub, Hpq.
        apply (deref_checked_ok e (lenZ D0) 4 off true); try assumption; try lia.
        + unfold ptr_limit; lia.
        + cbn; lia.
        + rewrite <- Hpq. exact Hnp.
      - unfold ptr_limit; lia.
      - cbn; lia.
      - rewrite Hsub. exact Hty2. }
    assert (Hd2 : deref_unchecked (fuel_of e) e (V (lenZ D0 + 4) 2) false = Ret (V p off)).
    { rewrite Hfu. rewrite (deref_unchecked_step e (lenZ D0 + 4) 2 4 false); try assumption; try lia.
      - rewrite Hsub, Hpq.
        apply (deref_unchecked_ok e (lenZ D0) 4 off true); try assumption; try lia.
        + unfold ptr_limit; lia.
        + cbn; lia.
        + rewrite <- Hpq. exact Hnp.
      - unfold ptr_limit; lia.
      - cbn; lia.
      - rewrite Hsub. exact Hty2. }
    split.
    + unfold find_root. rewrite Hlen. replace (lenZ D0 + 6 - 2) with (lenZ D0 + 4) by lia.
      destruct ((lenZ D0 + 6 =? 0) || negb ((lenZ D0 + 6) mod 2 =? 0)) eqn:E; [lia|].
      rewrite Hty; cbn [bind vtype_eqb]. exact Hd1.
    + unfold from_bytes_unchecked. rewrite Hlen. replace (lenZ D0 + 6 - 2) with (lenZ D0 + 4) by lia.
      destruct (lenZ D0 + 6 <? 2) eqn:E; [lia|]. rewrite Hty; cbn [bind vtype_eqb]. exact Hd2.
Qed.

Lemma rooted_read D tb t :
  rooted D tb t ->
  exists v t', tsim t t' /\ forall e, e_data e = D -> env_ok e ->
    from_bytes e = Ret (Ok v) /\ from_bytes_unchecked e = Ret v /\ vstored e tb t' v.
Proof.
  intros (t' & D0 & p & lim & Ht & Hst & Hev & Hmx & HD).
  pose proof (stored_bounds _ _ _ _ _ Hst) as [Hp0 Hp1]. pose proof (stored_lim _ _ _ _ _ Hst) as [Hl Hpe].
  set (off := lenZ D0 - p) in *. exists (V p off), t'. split; [exact Ht|].
  intros e Ed Hok. rewrite <- Ed in HD.
  assert (Hst' : stored (e_data e) tb t' p lim) by (rewrite HD; apply stored_mono; exact Hst).
  assert (Hvs : vstored e tb t' (V p off)) by (right; exists lim; cbn [v_pos v_len]; split; [exact Hst'|lia]).
  pose proof (vstored_nonptr _ _ _ _ Hok Hvs) as Hnp.
  assert (Hval : lim <= lenZ (e_data e)) by (apply stored_lim in Hst'; lia).
  assert (Hv : validate (fuel_of e) e false false (V p off) (lenZ (e_data e)) = Ret (Ok tt)).
  { eapply validate_stored; eauto; try lia. unfold fuel_of. unfold lenZ in Hval. lia. }
  destruct (tail_read e D0 p HD Hok ltac:(lia) Hpe Hev Hmx Hnp) as [Hf Hu].
  split; [|split; [exact Hu|exact Hvs]]. unfold from_bytes. rewrite Hf; cbn [bindr]. fold off. rewrite Hv. reflexivity.
Qed.

(* ---------- the invariant ---------- *)

Definition pend_ok (c : coll) : Prop := match c with CDict _ None => False | _ => True end.
Definition coll_slots (c : coll) : Z :=
  match c with
  | CArr vs => lenZ vs
  | CDict vs None => 2 * lenZ vs
  | CDict vs (Some _) => 2 * lenZ vs + 1
  end.
Fixpoint stack_pot (st : list coll) : Z :=
  match st with
  | [] => 0
  | c :: r => 22 + 4 * coll_slots c + stack_pot r
  end.
(** The length the document will have had when everything is closed, at most. *)
Definition pot (e : enc) : Z := lenZ (en_out e) + stack_pot (en_stack e).

Record inv (e : enc) (b : bstate) : Prop := mk_inv {
  i_even : lenZ (en_out e) mod 2 = 0;
  i_stack : Forall2 (crep (en_out e) (en_sk e)) (en_stack e) (b_stack b);
  i_pend : Forall pend_ok (tl (en_stack e));
  i_root : match b_root b with
           | Some t => en_stack e = [] /\ en_closed e = true /\ rooted (en_out e) (en_sk e) t
           | None => en_closed e = false
           end;
}.

Lemma coll_slots_nonneg c : 0 <= coll_slots c.
Proof. destruct c as [vs|vs [k|]]; cbn [coll_slots]; pose proof (lenZ_nonneg vs); lia. Qed.
Lemma stack_pot_nonneg st : 0 <= stack_pot st.
Proof. induction st as [|c st IH]; cbn [stack_pot]; [lia|]. pose proof (coll_slots_nonneg c). lia. Qed.

Lemma inv_init D : lenZ D mod 2 = 0 -> inv (enc_new_to_vec D) b_init.
Proof. intros H. constructor; cbn; auto. Qed.

(** Appending garbage to the output. *)
Lemma stack_mono D X tb st fr : Forall2 (crep D tb) st fr -> Forall2 (crep (D ++ X) tb) st fr.
Proof. apply Forall2_imp. intros c f. apply crep_mono. Qed.
Lemma stack_ext D tb tb' st fr : sk_ext tb tb' -> Forall2 (crep D tb) st fr -> Forall2 (crep D tb') st fr.
Proof. intros Hx. apply Forall2_imp. intros c f. apply crep_ext. exact Hx. Qed.

(** Writing a value that does not fit in a slot. *)
Lemma enc_write_value c e v :
  wf_enc v -> enc_ok v = true -> to_sized_value v = None ->
  lenZ (en_out e) mod 2 = 0 -> lenZ (en_out e) <= MAX_WIDE ->
  exists bs X, enc_write c e v false false = Ret (set_out e (en_out e ++ X), lenZ (en_out e)) /\
    repr (tree_of v) bs /\ holds (en_out e ++ X) (lenZ (en_out e)) bs /\
    lenZ X mod 2 = 0 /\ 0 <= lenZ X <= fleece_size v + 1.
Proof.
  intros Hw Hok Hn Hev Hmx. destruct (write_repr (c_dbg c) v Hw Hok Hn) as (bs & Hwr & Hl & Hr).
  exists bs, (pad_even bs). unfold enc_write. cbn [andb]. rewrite Hwr; cbn [bind].
  rewrite Hl, Z.eqb_refl. rewrite pad_even_app by exact Hev.
  pose proof (lenZ_nonneg (en_out e)).
  rewrite wrap_u32_id by (unfold two32, MAX_WIDE in *; lia).
  split; [reflexivity|]. split; [exact Hr|]. pose proof (pad_even_len bs) as Hpl. pose proof (lenZ_nonneg bs).
  split; [|lia]. unfold pad_even. destruct (lenZ bs mod 2 =? 0).
  - apply holds_end.
  - apply holds_end'. reflexivity.
Qed.

(** The result of one call against what the specification says. *)
Definition step_rel (c : cfg) (e : enc) (b : bstate) (o : op) : Prop :=
  match b_step b o with
  | Ok b' => exists e', enc_step c e o = Ret (e', Ok tt) /\ inv e' b' /\ pot e' <= pot e + op_size o
  | Err er => exists e', enc_step c e o = Ret (e', Err er) /\ inv e' b /\ pot e' <= pot e + op_size o
  end.

Lemma fleece_size_nonneg_str (k : list Z) : 0 <= bytes_fleece_size (lenZ k).
Proof.
  unfold bytes_fleece_size. pose proof (lenZ_nonneg k).
  repeat match goal with |- context [if ?b then _ else _] => destruct b end; try lia.
  unfold varint_size. destruct (lenZ k =? 0); [lia|]. pose proof (Z.log2_nonneg (lenZ k)). lia.
Qed.

(* --- write_value --- *)
Lemma step_value c e b v :
  inv e b -> wf_enc v -> enc_ok v = true -> pot e + op_size (OpValue v) <= MAX_WIDE ->
  0 <= fleece_size v ->
  step_rel c e b (OpValue v).
Proof.
  intros [Hev Hst Hpd Hrt] Hw Hok Hpot Hfs. unfold step_rel. cbn [b_step enc_step op_size] in *.
  unfold write_value. unfold pot in *. pose proof (stack_pot_nonneg (en_stack e)) as Hsp.
  destruct e as [D sk st cl]; destruct b as [fr rt]; cbn [en_out en_sk en_stack en_closed b_stack b_root] in *.
  destruct Hst as [|cc f st fr Hc Hst]; cbn [tl] in *.
  - eexists; split; [reflexivity|]. cbn [en_out en_stack stack_pot]. split; [|lia].
    constructor; cbn [en_out en_sk en_stack tl b_stack b_root]; auto.
  - assert (Hr : rt = None) by (destruct rt; [destruct Hrt; discriminate|reflexivity]). subst rt.
    destruct (to_sized_value v) as [s|] eqn:Es.
    + destruct (sized_repr v s Hw Hok Es) as (b0 & b1 & -> & Hrp).
      assert (Hsr : srep D sk [b0; b1; 0; 0] (tree_of v)) by (apply sr_inline; exact Hrp).
      unfold push_value, set_stack; cbn [en_out en_sk en_stack en_closed].
      destruct Hc as [vs ts Hvs|vs kts Hvs|vs kts dk kk k Hvs Hk]; cbn [add_child];
        (eexists; split; [reflexivity|]); cbn [en_out en_stack stack_pot coll_slots] in *.
      * split; [|rewrite lenZ_app, lenZ_cons; change (lenZ (@nil sized)) with 0; lia].
        constructor; cbn [en_out en_sk en_stack en_closed tl b_stack b_root]; auto.
        constructor; [|exact Hst]. constructor. apply Forall2_app; auto.
      * split; [|lia]. constructor; cbn [en_out en_sk en_stack en_closed tl b_stack b_root]; auto.
        constructor; [|exact Hst]. constructor. exact Hvs.
      * split; [|rewrite lenZ_app, lenZ_cons; change (lenZ (@nil delem)) with 0; lia].
        constructor; cbn [en_out en_sk en_stack en_closed tl b_stack b_root]; auto.
        constructor; [|exact Hst]. constructor. apply Forall2_app; auto. constructor; [|constructor].
        split; cbn [de_key de_val fst snd]; eauto.
    + cbn [stack_pot coll_slots] in *. pose proof (coll_slots_nonneg cc).
      destruct (enc_write_value c (mk_enc D sk (cc :: st) cl) v) as (bs & X & Ew & Hrp & Hh & HX & HXl);
        cbn [en_out]; auto; try lia.
      cbn [en_out] in *. pose proof (lenZ_nonneg D).
      rewrite Ew; cbn [bind]. rewrite new_pointer_ok by lia.
      unfold set_out; cbn [en_out en_sk en_stack en_closed].
      assert (Hsr : srep (D ++ X) sk (mkptr (lenZ D)) (tree_of v)).
      { eapply sr_ptr; [apply ts_refl| |lia]. apply st_scalar; eauto. }
      unfold push_value, set_stack; cbn [en_out en_sk en_stack en_closed].
      apply (stack_mono D X) in Hst. apply (crep_mono D sk X) in Hc.
      destruct Hc as [vs ts Hvs|vs kts Hvs|vs kts dk kk k Hvs Hk]; cbn [add_child];
        (eexists; split; [reflexivity|]); cbn [en_out en_stack stack_pot coll_slots] in *; rewrite lenZ_app.
      * split; [|rewrite lenZ_app, lenZ_cons; change (lenZ (@nil sized)) with 0; lia].
        constructor; cbn [en_out en_sk en_stack en_closed tl b_stack b_root]; auto.
        -- rewrite lenZ_app; lia.
        -- constructor; [|exact Hst]. constructor. apply Forall2_app; auto.
      * split; [|lia]. constructor; cbn [en_out en_sk en_stack en_closed tl b_stack b_root]; auto.
        -- rewrite lenZ_app; lia.
        -- constructor; [|exact Hst]. constructor. exact Hvs.
      * split; [|rewrite lenZ_app, lenZ_cons; change (lenZ (@nil delem)) with 0; lia].
        constructor; cbn [en_out en_sk en_stack en_closed tl b_stack b_root]; auto.
        -- rewrite lenZ_app; lia.
        -- constructor; [|exact Hst]. constructor. apply Forall2_app; auto. constructor; [|constructor].
           split; cbn [de_key de_val fst snd]; eauto.
Qed.

(* --- write_key --- *)
Lemma sk_find_bounds k t : forall i j, sk_find k i t = Some j ->
  i <= j < i + lenZ t /\ nthZ t (j - i) = Some k.
Proof.
  induction t as [|x t IH]; intros i j H; cbn [sk_find] in H; [discriminate|].
  rewrite lenZ_cons. pose proof (lenZ_nonneg t). destruct (bytes_eqb x k) eqn:E.
  - injection H as <-. apply bytes_eqb_eq in E. subst x. split; [lia|].
    replace (i - i) with 0 by lia. reflexivity.
  - apply IH in H as [H1 H2]. split; [lia|]. rewrite nthZ_cons_S by lia.
    replace (j - i - 1) with (j - (i + 1)) by lia. exact H2.
Qed.
Lemma zstr_make_id k : lenZ k <= 15 -> zstr_make k = k.
Proof. intros H. apply firstn_all2. unfold lenZ in H. lia. Qed.
Lemma encode_and_insert_ok ua t k t' i :
  lenZ k <> 16 -> encode_and_insert ua t k = (t', i) ->
  sk_ext (Some t) (Some t') /\
  match i with Some i => 0 <= i <= 2047 /\ sk_decode t' i = Some k | None => t' = t end.
Proof.
  intros Hk H. unfold encode_and_insert, can_add, sk_len, MAX_KEYS, MAX_KEY_LEN in H.
  destruct (lenZ t <? 2048) eqn:E1; cbn [andb negb] in H; [|injection H as <- <-; split; [apply sk_ext_refl|reflexivity]].
  destruct (lenZ k <=? 16) eqn:E2; cbn [andb negb] in H; [|injection H as <- <-; split; [apply sk_ext_refl|reflexivity]].
  destruct (can_encode ua k) eqn:E3; cbn [andb negb] in H; [|injection H as <- <-; split; [apply sk_ext_refl|reflexivity]].
  rewrite zstr_make_id in H by lia. pose proof (lenZ_nonneg t).
  destruct (sk_find k 0 t) as [j|] eqn:Ef; injection H as <- <-.
  - apply sk_find_bounds in Ef as [Hb Hn]. split; [apply sk_ext_refl|]. split; [lia|].
    unfold sk_decode. replace j with (j - 0) by lia. exact Hn.
  - split; [exists [k]; reflexivity|]. split; [lia|]. unfold sk_decode.
    rewrite nthZ_app_r by lia. replace (lenZ t - lenZ t) with 0 by lia. reflexivity.
Qed.

Lemma inv_root_none e b c f st fr :
  inv e b -> en_stack e = c :: st -> b_stack b = f :: fr -> b_root b = None /\ en_closed e = false.
Proof.
  intros [_ _ _ Hr] H1 _. destruct (b_root b); [destruct Hr; congruence|auto].
Qed.

(** Whether a key is stored as a string. *)
Definition key_as_string (c : cfg) (sk : option shared_keys) (k : list Z) : Prop :=
  match sk with
  | None => True
  | Some t => to_sized_value (EStr k) <> None \/ snd (encode_and_insert (c_ua c) t k) = None
  end.

Lemma step_key c e b k :
  inv e b -> wf_enc (EStr k) -> (en_sk e <> None -> lenZ k <> 16) -> b_root b = None ->
  (key_as_string c (en_sk e) k -> string_key k) ->
  pot e + op_size (OpKey k) <= MAX_WIDE ->
  step_rel c e b (OpKey k).
Proof.
  intros [Hev Hst Hpd Hrt] Hw Hk16 Hr Hkey Hpot. unfold step_rel. cbn [b_step enc_step op_size] in *.
  unfold write_key. unfold pot in *. pose proof (stack_pot_nonneg (en_stack e)) as Hsp.
  destruct e as [D sk st cl]; destruct b as [fr rt]; cbn [en_out en_sk en_stack en_closed b_stack b_root] in *.
  subst rt. subst cl. pose proof (fleece_size_nonneg_str k) as Hfs. pose proof (lenZ_nonneg D).
  (* pushing a key that is already represented *)
  assert (Hpush : forall D' sk' dk kk, Forall2 (crep D' sk') st fr -> krep D' sk' dk kk k -> lenZ D' mod 2 = 0 ->
     lenZ D' <= lenZ D + (bytes_fleece_size (lenZ k) + 1) ->
     match match fr with
           | FDict l None :: st => Ok (mk_b (FDict l (Some k) :: st) None)
           | FDict _ (Some _) :: _ => Err DictWaitingForValue
           | _ => Err DictNotOpen
           end with
     | Ok b' => exists e', Ret (push_key (mk_enc D' sk' st false) dk) = Ret (e', Ok tt) /\ inv e' b' /\
         lenZ (en_out e') + stack_pot (en_stack e') <= lenZ D + stack_pot st + (bytes_fleece_size (lenZ k) + 1 + 4)
     | Err er => exists e', Ret (push_key (mk_enc D' sk' st false) dk) = Ret (e', Err er) /\ inv e' (mk_b fr None) /\
         lenZ (en_out e') + stack_pot (en_stack e') <= lenZ D + stack_pot st + (bytes_fleece_size (lenZ k) + 1 + 4)
     end).
  { intros D' sk' dk kk Hst' Hk Hev' Hl'. unfold push_key, set_stack; cbn [en_out en_sk en_stack en_closed].
    assert (Hsame : inv (mk_enc D' sk' st false) (mk_b fr None))
      by (constructor; cbn [en_out en_sk en_stack en_closed tl b_stack b_root]; auto).
    destruct Hst' as [|cc f st fr Hc Hst']; cbn [tl] in *.
    - eexists; split; [reflexivity|]. split; [exact Hsame|]. cbn [en_out en_stack stack_pot]. lia.
    - destruct Hc as [vs ts Hvs|vs kts Hvs|vs kts dk2 kk2 k2 Hvs Hk2];
        (eexists; split; [reflexivity|]); cbn [en_out en_stack stack_pot coll_slots] in *.
      + split; [exact Hsame|lia].
      + split; [|lia]. constructor; cbn [en_out en_sk en_stack en_closed tl b_stack b_root]; auto.
        constructor; [|exact Hst']. econstructor; eauto.
      + split; [exact Hsame|lia]. }
  (* writing it out *)
  assert (Hptr : forall sk', sk_ext sk sk' -> string_key k -> to_sized_value (EStr k) = None ->
     match match fr with
           | FDict l None :: st => Ok (mk_b (FDict l (Some k) :: st) None)
           | FDict _ (Some _) :: _ => Err DictWaitingForValue
           | _ => Err DictNotOpen
           end with
     | Ok b' => exists e', write_key_pointer c (mk_enc D sk' st false) k = Ret (e', Ok tt) /\ inv e' b' /\
         lenZ (en_out e') + stack_pot (en_stack e') <= lenZ D + stack_pot st + (bytes_fleece_size (lenZ k) + 1 + 4)
     | Err er => exists e', write_key_pointer c (mk_enc D sk' st false) k = Ret (e', Err er) /\ inv e' (mk_b fr None) /\
         lenZ (en_out e') + stack_pot (en_stack e') <= lenZ D + stack_pot st + (bytes_fleece_size (lenZ k) + 1 + 4)
     end).
  { intros sk' Hx Hks Hn. unfold write_key_pointer.
    destruct (enc_write_value c (mk_enc D sk' st false) (EStr k)) as (bs & X & Ew & Hrp & Hh & HX & HXl);
      cbn [en_out]; auto; try lia. cbn [en_out fleece_size tree_of] in *. rewrite Ew; cbn [bind].
    unfold set_out; cbn [en_out en_sk en_stack en_closed].
    apply (Hpush (D ++ X) sk' (DKPointer k (lenZ D)) (KString k)).
    - apply stack_mono. eapply stack_ext; eauto.
    - eapply kr_ptr; eauto. lia.
    - rewrite lenZ_app; lia.
    - rewrite lenZ_app; lia. }
  destruct (to_sized_value (EStr k)) as [s|] eqn:Es.
  - destruct (sized_repr (EStr k) s Hw eq_refl Es) as (b0 & b1 & -> & Hrp). cbn [tree_of] in Hrp.
    eapply Hpush; eauto; [constructor; [|exact Hrp]|lia].
    apply Hkey. unfold key_as_string. destruct sk; [left; congruence|exact I].
  - unfold write_key_long; cbn [en_sk en_stack]. destruct sk as [t|]; [|apply Hptr; [apply sk_ext_refl|apply Hkey; exact I|reflexivity]].
    destruct st as [|[vs|vs nk] st].
    + inversion Hst; subst. eexists; split; [reflexivity|]. cbn [en_out en_stack stack_pot].
      split; [|lia]. constructor; cbn [en_out en_sk en_stack en_closed tl b_stack b_root]; auto.
    + inversion Hst as [|? ? ? ? Hc Hst2]; subst. inversion Hc; subst. eexists; split; [reflexivity|].
      cbn [en_out en_stack]. split; [|lia].
      constructor; cbn [en_out en_sk en_stack en_closed tl b_stack b_root]; auto.
    + destruct (encode_and_insert (c_ua c) t k) as [t' i] eqn:Ei.
      cbn [key_as_string] in Hkey. rewrite Ei in Hkey. cbn [snd] in Hkey.
      apply encode_and_insert_ok in Ei as [Hx Hi]; [|apply Hk16; congruence].
      unfold set_sk; cbn [en_out en_sk en_stack en_closed].
      destruct i as [i|]; [|apply Hptr; [exact Hx|apply Hkey; right; reflexivity|reflexivity]].
      eapply Hpush; [eapply stack_ext; eauto|eapply kr_shared; [apply Hi|reflexivity|apply Hi]|exact Hev|lia].
Qed.

(* --- begin_array, begin_dict, set_shared_keys --- *)
Lemma inv_set_sk e b t : inv e b -> sk_ext (en_sk e) (Some t) -> inv (set_sk e (Some t)) b.
Proof.
  intros [Hev Hst Hpd Hrt] Hx. constructor; cbn [set_sk en_out en_sk en_stack en_closed]; auto.
  - eapply stack_ext; eauto.
  - destruct (b_root b); [|exact Hrt]. destruct Hrt as (H1 & H2 & H3). split; [exact H1|]. split; [exact H2|].
    eapply rooted_ext; eauto.
Qed.
Lemma step_set_sk c e b t : inv e b -> sk_ext (en_sk e) (Some t) -> step_rel c e b (OpSetSharedKeys t).
Proof.
  intros Hi Hx. unfold step_rel. cbn [b_step enc_step op_size]. eexists; split; [reflexivity|].
  split; [apply inv_set_sk; auto|]. unfold pot, set_shared_keys; cbn [set_sk en_out en_stack]. lia.
Qed.

Lemma step_begin_aux e b cc f :
  inv e b -> crep (en_out e) (en_sk e) cc f -> coll_slots cc = 0 ->
  match b_begin b f with
  | Ok b' => (en_closed e = false /\ top_waits_for_key (en_stack e) = false) /\
      inv (set_stack e (cc :: en_stack e)) b' /\ pot (set_stack e (cc :: en_stack e)) = pot e + 22
  | Err er => (en_closed e = true /\ er = MultiTopLevelCollection) \/
      (en_closed e = false /\ top_waits_for_key (en_stack e) = true /\ er = DictWaitingForKey)
  end.
Proof.
  intros [Hev Hst Hpd Hrt] Hc Hs. unfold b_begin.
  destruct (b_root b) as [t|] eqn:Er; [left; tauto|].
  assert (Hnew : top_waits_for_key (en_stack e) = false ->
    inv (set_stack e (cc :: en_stack e)) (mk_b (f :: b_stack b) None) /\
    pot (set_stack e (cc :: en_stack e)) = pot e + 22).
  { intros Ht. split.
    - constructor; cbn [set_stack en_out en_sk en_stack en_closed tl b_stack b_root]; auto.
      destruct (en_stack e) as [|c0 st0]; [constructor|]. constructor; [|exact Hpd].
      destruct c0 as [vs|vs [k|]]; cbn in *; try exact I. discriminate.
    - unfold pot, set_stack; cbn [en_out en_stack stack_pot]. lia. }
  destruct Hst as [|c0 f0 st0 fr0 Hc0 Hst].
  - split; [split; [exact Hrt|reflexivity]|]. apply Hnew. reflexivity.
  - destruct Hc0 as [vs ts Hvs|vs kts Hvs|vs kts dk2 kk2 k2 Hvs Hk2]; cbn [top_waits_for_key] in *.
    + split; [split; [exact Hrt|reflexivity]|]. apply Hnew. reflexivity.
    + right. auto.
    + split; [split; [exact Hrt|reflexivity]|]. apply Hnew. reflexivity.
Qed.
Lemma step_begin_array c e b n : inv e b -> n * 4 < two63 -> step_rel c e b (OpBeginArray n).
Proof.
  intros Hi Hn. unfold step_rel. cbn [b_step enc_step op_size].
  pose proof (step_begin_aux e b (CArr []) (FArr []) Hi ltac:(constructor; constructor) eq_refl) as H.
  unfold begin_array. destruct (b_begin b (FArr [])) as [b'|er].
  - destruct H as ((H1 & H2) & H3 & H4). rewrite H1, H2. destruct (two63 <=? n * 4) eqn:E; [lia|].
    eexists; split; [reflexivity|]. split; [exact H3|lia].
  - destruct H as [(H1 & ->)|(H1 & H2 & ->)]; rewrite H1; try rewrite H2;
      (eexists; split; [reflexivity|]; split; [exact Hi|lia]).
Qed.
Lemma step_begin_dict c e b : inv e b -> b_root b = None -> step_rel c e b OpBeginDict.
Proof.
  intros Hi Hr. unfold step_rel. cbn [b_step enc_step op_size].
  pose proof (step_begin_aux e b (CDict [] None) (FDict [] None) Hi ltac:(constructor; constructor) eq_refl) as H.
  assert (Hcl : en_closed e = false) by (destruct Hi as [_ _ _ Hx]; rewrite Hr in Hx; exact Hx).
  unfold begin_dict. destruct (b_begin b (FDict [] None)) as [b'|er].
  - destruct H as ((H1 & H2) & H3 & H4). rewrite H1, H2.
    eexists; split; [reflexivity|]. split; [exact H3|lia].
  - destruct H as [(H1 & ->)|(H1 & H2 & ->)]; [congruence|]. rewrite H1, H2.
    eexists; split; [reflexivity|]; split; [exact Hi|lia].
Qed.

(* --- end_array, end_dict --- *)
(** Closing a collection that has been laid out at [p]. *)
Lemma finished_ok c e p tb t t' fr :
  en_sk e = tb -> lenZ (en_out e) mod 2 = 0 ->
  Forall2 (crep (en_out e) tb) (en_stack e) fr -> Forall pend_ok (en_stack e) ->
  en_closed e = false ->
  tsim t t' -> stored (en_out e) tb t' p (lenZ (en_out e)) -> lenZ (en_out e) + 6 <= MAX_WIDE ->
  exists e', finished_collection c e p = Ret (e', Ok tt) /\
    pot e' <= pot e + 6 /\ length (en_stack e') = length (en_stack e) /\
    inv e' (match fr with
            | [] => mk_b [] (Some t)
            | g :: fr' => mk_b (add_child g t :: fr') None
            end).
Proof.
  intros Hsk Hev Hst Hpd Hcl Ht Hs Hmx. unfold finished_collection, pot.
  destruct e as [D sk st cl]; cbn [en_out en_sk en_stack en_closed] in *. subst sk cl.
  pose proof (stored_bounds _ _ _ _ _ Hs) as [Hp0 Hp1]. pose proof (stored_lim _ _ _ _ _ Hs) as [_ Hpe].
  assert (Hmw : MAX_WIDE = 1073741823) by reflexivity.
  destruct Hst as [|cc f st fr Hc Hst].
  - unfold u32_sub. rewrite wrap_u32_id by (unfold two32; lia).
    destruct (p <=? lenZ D) eqn:Ep; [|lia]. cbn [bind].
    assert (Hpq : p = lenZ D - (lenZ D - p)) by lia.
    assert (Hfx : fix1 (lenZ D) (mkptr p) = mkptr (lenZ D - p))
      by (unfold fix1; rewrite is_ptr_mkptr, pointer_offset_mkptr by lia; reflexivity).
    assert (Hswf : swf (lenZ D) (mkptr p)) by (right; exists p; repeat split; try lia).
    assert (Hsb : sbyte (mkptr p)).
    { unfold sbyte. rewrite mkptr_bytes by lia. cbn [nth]. unfold is_byte. lia. }
    assert (Hbytes : forall w, slot_bytes w (mkptr (lenZ D - p)) = ptr_bytes w (lenZ D - p)).
    { intros w. unfold slot_bytes. rewrite is_ptr_mkptr, pointer_offset_mkptr by lia. reflexivity. }
    assert (Hroot : rooted (D ++ root_tail (lenZ D - p)) tb t).
    { exists t', D, p, (lenZ D). repeat split; auto. lia. }
    destruct (lenZ D - p <=? MAX_NARROW) eqn:En.
    + rewrite new_pointer_ok by lia. rewrite <- Hfx.
      destruct (enc_write_slot c (mk_enc D tb [] false) false (mkptr p) (lenZ D)) as [Ew _]; auto; try lia.
      { unfold slot_fits. rewrite is_ptr_mkptr, pointer_offset_mkptr by lia. exact En. }
      rewrite Ew; cbn [bind fst]. rewrite Hfx, Hbytes. cbn [en_out].
      unfold root_tail in Hroot. rewrite En in Hroot.
      eexists; split; [reflexivity|]. unfold set_closed, set_out; cbn [en_out en_sk en_stack en_closed].
      split; [|split; [reflexivity|]].
      * rewrite lenZ_app, ptr_bytes_len. cbn [width_of]. lia.
      * constructor; cbn [en_out en_sk en_stack en_closed b_stack b_root tl]; auto.
        rewrite lenZ_app, ptr_bytes_len. cbn [width_of]. lia.
    + rewrite (new_pointer_ok (lenZ D - p)) by lia. rewrite <- Hfx.
      destruct (enc_write_slot c (mk_enc D tb [] false) true (mkptr p) (lenZ D)) as [Ew _]; auto; try lia.
      rewrite Ew; cbn [bind fst]. rewrite Hfx, Hbytes. cbn [en_out].
      rewrite new_pointer_ok by lia. unfold set_out; cbn [en_out en_sk en_stack en_closed].
      assert (Hln : lenZ (D ++ ptr_bytes true (lenZ D - p)) = lenZ D + 4)
        by (rewrite lenZ_app, ptr_bytes_len; reflexivity).
      assert (Hfx2 : fix1 (lenZ D + 4) (mkptr (lenZ D)) = mkptr 4).
      { unfold fix1. rewrite is_ptr_mkptr, pointer_offset_mkptr by lia. f_equal. lia. }
      rewrite <- Hfx2.
      destruct (enc_write_slot c (mk_enc (D ++ ptr_bytes true (lenZ D - p)) tb [] false) false (mkptr (lenZ D)) (lenZ D + 4))
        as [Ew2 _]; cbn [en_out]; auto; try lia.
      { right; exists (lenZ D); repeat split; try lia. }
      { unfold sbyte. rewrite mkptr_bytes by lia. cbn [nth]. unfold is_byte. lia. }
      { unfold slot_fits. rewrite is_ptr_mkptr, pointer_offset_mkptr by lia. unfold MAX_NARROW. lia. }
      rewrite Ew2; cbn [bind fst]. rewrite Hfx2. cbn [en_out].
      change (slot_bytes false (mkptr 4)) with (ptr_bytes false 4).
      rewrite <- app_assoc. unfold root_tail in Hroot. rewrite En in Hroot.
      eexists; split; [reflexivity|]. unfold set_closed, set_out; cbn [en_out en_sk en_stack en_closed].
      assert (Hl2 : lenZ (D ++ ptr_bytes true (lenZ D - p) ++ ptr_bytes false 4) = lenZ D + 6)
        by (rewrite !lenZ_app, !ptr_bytes_len; cbn [width_of]; lia).
      split; [lia|]. split; [reflexivity|].
      constructor; cbn [en_out en_sk en_stack en_closed b_stack b_root tl]; auto. lia.
  - rewrite new_pointer_ok by lia. inversion Hpd as [|? ? Hp1' Hpd']; subst.
    assert (Hsr : srep D tb (mkptr p) t) by (eapply sr_ptr; eauto; lia).
    unfold set_stack; cbn [en_out en_sk en_stack en_closed].
    destruct Hc as [vs ts Hvs|vs kts Hvs|vs kts dk kk k Hvs Hk]; cbn [add_child]; [|contradiction|];
      (eexists; split; [reflexivity|]); cbn [en_out en_stack stack_pot coll_slots] in *.
    + split; [rewrite lenZ_app, lenZ_cons; change (lenZ (@nil sized)) with 0; lia|]. split; [reflexivity|].
      constructor; cbn [en_out en_sk en_stack en_closed tl b_stack b_root]; auto.
      constructor; [|exact Hst]. constructor. apply Forall2_app; auto.
    + split; [rewrite lenZ_app, lenZ_cons; change (lenZ (@nil delem)) with 0; lia|]. split; [reflexivity|].
      constructor; cbn [en_out en_sk en_stack en_closed tl b_stack b_root]; auto.
      constructor; [|exact Hst]. constructor. apply Forall2_app; auto. constructor; [|constructor].
      split; cbn [de_key de_val fst snd]; eauto.
Qed.

Lemma b_pop_cons b f fr :
  b_stack b = f :: fr -> b_root b = None ->
  b_pop b = match fr with
            | [] => mk_b [] (Some (close_frame f))
            | g :: fr' => mk_b (add_child g (close_frame f) :: fr') None
            end.
Proof. intros H1 H2. unfold b_pop. rewrite H1, H2. destruct fr; reflexivity. Qed.

Lemma hdr_size_le n : 0 <= n -> n <= MAX_WIDE -> hdr_size n <= 12.
Proof. intros. apply hdr_size_bounds. unfold MAX_WIDE, two64 in *. lia. Qed.

(** The popped array. *)
Lemma close_array c e b l fr :
  inv e b -> b_stack b = FArr l :: fr -> top_fits c e = true -> pot e <= MAX_WIDE ->
  exists e', end_array c e = Ret (e', Ok tt) /\ inv e' (b_pop b) /\ pot e' <= pot e /\
    S (length (en_stack e')) = length (en_stack e).
Proof.
  intros Hi Hb Hfit Hpot. destruct Hi as [Hev Hst Hpd Hrt]. unfold pot in *.
  rewrite Hb in Hst. inversion Hst as [|cc ? st ? Hc Hst' E1 E2]; subst. inversion Hc as [vs ts Hvs E3 E4| |]; subst.
  assert (Hr : b_root b = None /\ en_closed e = false)
    by (destruct (b_root b); [destruct Hrt as [Hrt _]; rewrite <- E1 in Hrt; discriminate|auto]).
  destruct Hr as [Hr Hcl]. rewrite <- E1 in *. cbn [stack_pot coll_slots tl] in *.
  pose proof (stack_pot_nonneg st). pose proof (lenZ_nonneg vs). pose proof (lenZ_nonneg (en_out e)).
  pose proof (hdr_size_le (lenZ vs) ltac:(lia) ltac:(lia)) as Hh.
  destruct (end_array_ok c e (en_sk e) vs l st) as (X & t' & lim & Er & Ht & Hs & Hl & Hle & Hlb & _); auto; try lia.
  destruct (finished_ok c (set_out (set_stack e st) (en_out e ++ X)) (lenZ (en_out e)) (en_sk e) (TArr l) t' fr)
    as (e' & Ef & Hp & Hln & Hinv); cbn [set_out set_stack en_out en_sk en_stack en_closed] in *; auto; try lia.
  - apply stack_mono. exact Hst'.
  - rewrite <- Hl. exact Hs.
  - unfold pot in Hp. cbn [set_out set_stack en_out en_stack] in Hp.
    exists e'. split; [rewrite Er; exact Ef|]. split; [|split].
    + rewrite (b_pop_cons b (FArr l) fr Hb Hr). exact Hinv.
    + lia.
    + cbn [length]. f_equal. exact Hln.
Qed.
Lemma close_dict c e b l fr :
  sort_ok (c_sort c) ->
  inv e b -> b_stack b = FDict l None :: fr -> top_fits c e = true -> pot e <= MAX_WIDE ->
  exists e', end_dict c e = Ret (e', Ok tt) /\ inv e' (b_pop b) /\ pot e' <= pot e /\
    S (length (en_stack e')) = length (en_stack e).
Proof.
  intros Hso Hi Hb Hfit Hpot. destruct Hi as [Hev Hst Hpd Hrt]. unfold pot in *.
  rewrite Hb in Hst. inversion Hst as [|cc ? st ? Hc Hst' E1 E2]; subst. inversion Hc as [|vs kts Hvs E3 E4|]; subst.
  assert (Hr : b_root b = None /\ en_closed e = false)
    by (destruct (b_root b); [destruct Hrt as [Hrt _]; rewrite <- E1 in Hrt; discriminate|auto]).
  destruct Hr as [Hr Hcl]. rewrite <- E1 in *. cbn [stack_pot coll_slots tl] in *.
  pose proof (stack_pot_nonneg st). pose proof (lenZ_nonneg vs). pose proof (lenZ_nonneg (en_out e)).
  pose proof (hdr_size_le (lenZ vs) ltac:(lia) ltac:(lia)) as Hh.
  destruct (end_dict_ok c e (en_sk e) vs l st) as (X & t' & lim & Er & Ht & Hs & Hl & Hle & Hlb & _); auto; try lia.
  destruct (finished_ok c (set_out (set_stack e st) (en_out e ++ X)) (lenZ (en_out e)) (en_sk e) (TDict l) t' fr)
    as (e' & Ef & Hp & Hln & Hinv); cbn [set_out set_stack en_out en_sk en_stack en_closed] in *; auto; try lia.
  - apply stack_mono. exact Hst'.
  - rewrite <- Hl. exact Hs.
  - unfold pot in Hp. cbn [set_out set_stack en_out en_stack] in Hp.
    exists e'. split; [rewrite Er; exact Ef|]. split; [|split].
    + rewrite (b_pop_cons b (FDict l None) fr Hb Hr). exact Hinv.
    + lia.
    + cbn [length]. f_equal. exact Hln.
Qed.

(* ---------- one call ---------- *)

(** What is asked of a call: the arguments are Rust values the encoder stores faithfully, a
    collection being closed survives being written, and the call is not one of the calls
    whose refusal damages the encoder. *)
Definition call_ok (c : cfg) (e : enc) (b : bstate) (o : op) : Prop :=
  match o with
  | OpKey k => wf_enc (EStr k) /\ (en_sk e <> None -> lenZ k <> 16) /\ b_root b = None /\
               (key_as_string c (en_sk e) k -> string_key k)
  | OpValue v => wf_enc v /\ enc_ok v = true
  | OpBeginArray n => n * 4 < two63
  | OpBeginDict => b_root b = None
  | OpEndArray =>
      match b_stack b with
      | FArr _ :: _ => top_fits c e = true
      | FDict _ None :: _ => False
      | _ => True
      end
  | OpEndDict => match b_stack b with FDict _ None :: _ => top_fits c e = true | _ => True end
  | OpSetSharedKeys t => sk_ext (en_sk e) (Some t)
  end.

Lemma fleece_size_pos v : wf_enc v -> enc_ok v = true -> 2 <= fleece_size v.
Proof.
  induction v as [t z|b|b|b| | |s0|s0| |w IH|s0|d n]; cbn [wf_enc enc_ok fleece_size]; intros Hw Hok; try lia; auto.
  - assert (Hu : 0 <= z < two64 -> (z <=? 2047) || (z <? 256 ^ (8 - (ctz64 z + 7) / 8)) = true -> 2 <= u64_fleece_size z).
    { intros Hz Hu. unfold u64_fleece_size. destruct (z <=? 2047) eqn:E; [lia|]. cbn [orb] in Hu.
      assert (0 < 8 - (ctz64 z + 7) / 8); [|lia].
      destruct (Z_lt_le_dec 0 (8 - (ctz64 z + 7) / 8)) as [?|Hneg]; [assumption|exfalso].
      destruct (Z.eq_dec (8 - (ctz64 z + 7) / 8) 0) as [E0|Hne].
      - rewrite E0 in Hu. cbn in Hu. lia.
      - rewrite Z.pow_neg_r in Hu by lia. lia. }
    assert (Hs : (-2048 <=? z) && (z <=? 2047) = true -> 2 <= i64_fleece_size z).
    { intros Hz. unfold i64_fleece_size. assert (i64_is_short z = true) as ->; [|lia]. unfold i64_is_short. lia. }
    destruct t; cbn [ity_min ity_max] in *; try lia; auto.
    + apply Hu; [unfold two32, two64 in *; lia|]. destruct (z <=? 2047) eqn:E; [reflexivity|]. cbn [orb].
      pose proof (u32_uint_ok z ltac:(lia)). lia.
  - destruct Hw as (_ & Hl & _). unfold bytes_fleece_size. pose proof (lenZ_nonneg s0).
    destruct (lenZ s0 <=? 1) eqn:E1; [lia|]. destruct (lenZ s0 <=? 14) eqn:E2; [lia|].
    pose proof (varint_size_pos (lenZ s0) ltac:(unfold two63, two64 in *; lia)). lia.
  - destruct Hw as (_ & Hl). unfold bytes_fleece_size. pose proof (lenZ_nonneg s0).
    destruct (lenZ s0 <=? 1) eqn:E1; [lia|]. destruct (lenZ s0 <=? 14) eqn:E2; [lia|].
    pose proof (varint_size_pos (lenZ s0) ltac:(unfold two63, two64 in *; lia)). lia.
Qed.

Theorem step_ok c e b o :
  sort_ok (c_sort c) -> inv e b -> call_ok c e b o -> pot e + op_size o <= MAX_WIDE ->
  step_rel c e b o.
Proof.
  intros Hso Hi Hc Hpot. destruct o as [k|v|n| | | |t]; cbn [call_ok] in Hc.
  - destruct Hc as (H1 & H2 & H3 & H4). apply step_key; auto.
  - destruct Hc as (H1 & H2). pose proof (fleece_size_pos v H1 H2). apply step_value; auto; lia.
  - apply step_begin_array; auto.
  - unfold step_rel. cbn [b_step enc_step op_size] in *. pose proof (i_stack _ _ Hi) as Hst.
    destruct (b_stack b) as [|[l|l [k|]] fr] eqn:Eb; [| | |contradiction].
    + inversion Hst as [E1|]; subst. exists e. unfold end_array. rewrite <- E1; cbn [stack_pop].
      split; [|split; [exact Hi|lia]]. rewrite E1. destruct e; reflexivity.
    + destruct (close_array c e b l fr Hi Eb Hc ltac:(lia)) as (e' & H1 & H2 & H3 & _). exists e'. repeat split; try apply H2; auto; lia.
    + inversion Hst as [|cc ? st ? Hcr Hst' E1 E2]; subst. inversion Hcr; subst.
      exists e. unfold end_array. rewrite <- E1; cbn [stack_pop]. split; [|split; [exact Hi|lia]].
      rewrite E1. destruct e; reflexivity.
  - apply step_begin_dict; auto.
  - unfold step_rel. cbn [b_step enc_step op_size] in *. pose proof (i_stack _ _ Hi) as Hst.
    destruct (b_stack b) as [|[l|l [k|]] fr] eqn:Eb.
    + inversion Hst as [E1|]; subst. exists e. unfold end_dict. rewrite <- E1.
      split; [reflexivity|]. split; [exact Hi|lia].
    + inversion Hst as [|cc ? st ? Hcr Hst' E1 E2]; subst. inversion Hcr; subst.
      exists e. unfold end_dict. rewrite <- E1. split; [reflexivity|]. split; [exact Hi|lia].
    + inversion Hst as [|cc ? st ? Hcr Hst' E1 E2]; subst. inversion Hcr; subst.
      exists e. unfold end_dict. rewrite <- E1. split; [reflexivity|]. split; [exact Hi|lia].
    + destruct (close_dict c e b l fr Hso Hi Eb Hc ltac:(lia)) as (e' & H1 & H2 & H3 & _). exists e'. repeat split; try apply H2; auto; lia.
  - apply step_set_sk; auto.
Qed.

(* ---------- runs ---------- *)

(** Every call of a run is [call_ok] in the state it is made in. *)
Fixpoint calls_ok (c : cfg) (e : enc) (b : bstate) (ops : list op) : Prop :=
  match ops with
  | [] => True
  | o :: ops' =>
      call_ok c e b o /\
      forall e' r, enc_step c e o = Ret (e', r) ->
        calls_ok c e' (match b_step b o with Ok b' => b' | Err _ => b end) ops'
  end.

Lemma op_size_nonneg_key k : 0 <= op_size (OpKey k).
Proof. cbn [op_size]. pose proof (fleece_size_nonneg_str k). lia. Qed.
Lemma op_size_nonneg c e b o : call_ok c e b o -> 0 <= op_size o.
Proof.
  destruct o as [k|v|n| | | |t]; cbn [call_ok]; intros H; try (cbn [op_size]; lia).
  - apply op_size_nonneg_key.
  - cbn [op_size]. pose proof (fleece_size_pos v (proj1 H) (proj2 H)). lia.
Qed.

Definition step_result {A} (r : result A encode_error) : result unit encode_error :=
  match r with Ok _ => Ok tt | Err er => Err er end.

Theorem run_ok c : sort_ok (c_sort c) -> forall ops e b,
  inv e b -> calls_ok c e b ops -> pot e + ops_size ops <= MAX_WIDE ->
  (forall o, In o ops -> 0 <= op_size o) ->
  exists e', enc_run c e ops = Ret (e', snd (b_run b ops)) /\ inv e' (fst (b_run b ops)) /\
    pot e' <= pot e + ops_size ops.
Proof.
  intros Hso. induction ops as [|o ops IH]; intros e b Hi Hc Hpot Hnn.
  - exists e. cbn. split; [reflexivity|]. split; [exact Hi|lia].
  - cbn [calls_ok] in Hc. destruct Hc as [Hc Hrest].
    change (ops_size (o :: ops)) with (op_size o + ops_size ops) in *.
    assert (Hn0 : 0 <= ops_size ops).
    { clear - Hnn. induction ops as [|o2 ops IH]; [cbn; lia|].
      change (ops_size (o2 :: ops)) with (op_size o2 + ops_size ops).
      pose proof (Hnn o2 (or_intror (or_introl eq_refl))).
      assert (0 <= ops_size ops); [|lia]. apply IH. intros o' [<-|H']; apply Hnn; [left; reflexivity|right; right; exact H']. }
    pose proof (step_ok c e b o Hso Hi Hc ltac:(lia)) as Hs. unfold step_rel in Hs.
    cbn [enc_run b_run].
    destruct (b_step b o) as [b'|er]; destruct Hs as (e1 & Hs & Hi1 & Hp1);
      specialize (Hrest _ _ Hs);
      (destruct (IH e1 _ Hi1 Hrest ltac:(lia) (fun o' H' => Hnn o' (or_intror H'))) as (e2 & H2 & Hi2 & Hp2));
      exists e2; rewrite Hs; cbn [bind fst snd]; rewrite H2; cbn [bind fst snd];
      (split; [reflexivity|]; split; [exact Hi2|lia]).
Qed.

(* ---------- finish ---------- *)

(** Every collection still open at [finish] survives being written. *)
Fixpoint closes_ok (fuel : nat) (c : cfg) (e : enc) : Prop :=
  match fuel with
  | O => True
  | S f =>
      match en_stack e with
      | [] => True
      | CArr _ :: _ =>
          top_fits c e = true /\ forall e' r, end_array c e = Ret (e', r) -> closes_ok f c e'
      | CDict vs _ :: st =>
          let e0 := set_stack e (CDict vs None :: st) in
          top_fits c e0 = true /\ forall e' r, end_dict c e0 = Ret (e', r) -> closes_ok f c e'
      end
  end.

Lemma b_finish_pop b f fr : b_stack b = f :: fr -> b_root b = None -> b_finish (b_pop b) = b_finish b.
Proof.
  intros H1 H2. rewrite (b_pop_cons b f fr H1 H2). unfold b_finish. rewrite H1. destruct fr; reflexivity.
Qed.

Lemma drop_pending e b vs nk st :
  inv e b -> en_stack e = CDict vs nk :: st ->
  exists l fr pk, b_stack b = FDict l pk :: fr /\ b_root b = None /\
    inv (set_stack e (CDict vs None :: st)) (mk_b (FDict l None :: fr) None) /\
    pot (set_stack e (CDict vs None :: st)) <= pot e.
Proof.
  intros [Hev Hst Hpd Hrt] He. rewrite He in *.
  assert (Hr : b_root b = None) by (destruct (b_root b); [destruct Hrt; discriminate|reflexivity]).
  rewrite Hr in Hrt. unfold pot. rewrite He. cbn [set_stack en_out en_stack stack_pot].
  inversion Hst as [|? f ? fr Hc Hst']; subst. inversion Hc; subst;
    (eexists; eexists; eexists; split; [reflexivity|]; split; [exact Hr|]; split; [|cbn [coll_slots]; lia]);
    constructor; cbn [set_stack en_out en_sk en_stack en_closed tl b_stack b_root]; auto;
    constructor; auto; constructor; auto.
Qed.

Theorem enc_end_ok c : sort_ok (c_sort c) -> forall fuel e b,
  (length (en_stack e) < fuel)%nat -> inv e b -> closes_ok fuel c e -> pot e <= MAX_WIDE ->
  exists e', enc_end fuel c e = Ret e' /\ inv e' (mk_b [] (b_finish b)) /\ pot e' <= pot e.
Proof.
  intros Hso. induction fuel as [|fuel IH]; intros e b Hf Hi Hc Hpot; [lia|].
  cbn [enc_end closes_ok] in *. destruct (en_stack e) as [|cc st] eqn:Est.
  - exists e. split; [reflexivity|]. split; [|lia]. destruct Hi as [Hev Hst Hpd Hrt].
    rewrite Est in Hst. assert (E : b_stack b = []) by (inversion Hst; reflexivity). unfold b_finish. rewrite E.
    constructor; cbn [b_stack b_root]; auto. rewrite Est. constructor.
  - destruct cc as [vs|vs nk].
    + destruct Hc as [Hfit Hc]. pose proof (i_stack _ _ Hi) as Hst. rewrite Est in Hst.
      inversion Hst as [|? f ? fr Hcr Hst' E1 E2]; subst. inversion Hcr as [? l| |]; subst.
      destruct (close_array c e b l fr Hi (eq_sym E2) Hfit Hpot) as (e1 & H1 & H2 & H3 & H4).
      rewrite H1; cbn [bind fst]. specialize (Hc _ _ H1).
      rewrite Est in H4. cbn [length] in *. 
      destruct (IH e1 (b_pop b) ltac:(lia) H2 Hc ltac:(lia)) as (e2 & H5 & H6 & H7).
      exists e2. split; [exact H5|]. split; [|lia].
      assert (Hr : b_root b = None) by (eapply inv_root_none; eauto).
      rewrite (b_finish_pop b _ _ (eq_sym E2) Hr) in H6. exact H6.
    + cbv zeta in Hc. destruct Hc as [Hfit Hc].
      destruct (drop_pending e b vs nk st Hi Est) as (l & fr & pk & Eb & Hr & Hi0 & Hp0).
      destruct (close_dict c _ _ l fr Hso Hi0 eq_refl Hfit ltac:(lia)) as (e1 & H1 & H2 & H3 & H4).
      rewrite H1; cbn [bind fst]. specialize (Hc _ _ H1).
      cbn [set_stack en_stack length] in *.
      destruct (IH e1 _ ltac:(lia) H2 Hc ltac:(lia)) as (e2 & H5 & H6 & H7).
      exists e2. split; [exact H5|]. split; [|lia].
      rewrite (b_finish_pop (mk_b (FDict l None :: fr) None) (FDict l None) fr eq_refl eq_refl) in H6. unfold b_finish in *. rewrite Eb. cbn [b_stack] in H6.
      exact H6.
Qed.
End KP.

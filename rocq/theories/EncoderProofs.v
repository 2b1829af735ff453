(** The encoder refines the abstract builder: every open collection on its stack, and the
    finished root, are laid out in the output. *)
From Verif Require Import Prelude Lib Varint VarintProofs Utf8 Float SharedKeys
  Decode Read Encodable Encoder BuilderSpec Holds Repr EncodableProofs Stored StoredRead SlotProofs.
From Coq Require Import ZifyBool ZifyNat ZifyN Sorted Permutation.
Ltac Zify.zify_post_hook ::= Z.div_mod_to_equations.

Section KP.
Context {SP : KeyPred}.

(* ---------- representation of the stack ---------- *)

Inductive srep (D : list Z) (tb : option shared_keys) : sized -> tree -> Prop :=
| sr_inline t b0 b1 : repr t [b0; b1] -> srep D tb [b0; b1; 0; 0] t
| sr_ptr t t' off lim :
    tsim t t' -> stored D tb t' off lim -> off <= MAX_WIDE -> srep D tb (mkptr off) t.

Inductive krep (D : list Z) (tb : option shared_keys) : dictkey -> dkey -> list Z -> Prop :=
| kr_inline k b0 b1 : string_key k -> repr (TStr k) [b0; b1] -> krep D tb (DKInline [b0; b1; 0; 0]) (KString k) k
| kr_shared k i t :
    0 <= i <= 2047 -> tb = Some t -> sk_decode t i = Some k -> krep D tb (DKShared i) (KShared i) k
| kr_ptr k off bs :
    string_key k -> repr (TStr k) bs -> holds D off bs -> off mod 2 = 0 -> off <= MAX_WIDE ->
    krep D tb (DKPointer k off) (KString k) k.

Definition erep (D : list Z) (tb : option shared_keys) (d : delem) (kt : list Z * tree) : Prop :=
  (exists kk, krep D tb (de_key d) kk (fst kt)) /\ srep D tb (de_val d) (snd kt).

Inductive crep (D : list Z) (tb : option shared_keys) : coll -> frame -> Prop :=
| cr_arr vs ts : Forall2 (srep D tb) vs ts -> crep D tb (CArr vs) (FArr ts)
| cr_dict vs kts : Forall2 (erep D tb) vs kts -> crep D tb (CDict vs None) (FDict kts None)
| cr_dictk vs kts dk kk k :
    Forall2 (erep D tb) vs kts -> krep D tb dk kk k ->
    crep D tb (CDict vs (Some dk)) (FDict kts (Some k)).

Lemma srep_mono D tb X s t : srep D tb s t -> srep (D ++ X) tb s t.
Proof. intros H. destruct H; [apply sr_inline; assumption|eapply sr_ptr; eauto using stored_mono]. Qed.
Lemma krep_mono D tb X dk kk k : krep D tb dk kk k -> krep (D ++ X) tb dk kk k.
Proof.
  intros H. destruct H; [apply kr_inline; assumption|eapply kr_shared; eauto|eapply kr_ptr; eauto using holds_mono].
Qed.
Lemma erep_mono D tb X d kt : erep D tb d kt -> erep (D ++ X) tb d kt.
Proof. intros [[kk H1] H2]. split; [exists kk; apply krep_mono; exact H1|apply srep_mono; exact H2]. Qed.
Lemma Forall2_imp {A B} (P Q : A -> B -> Prop) l m :
  (forall x y, P x y -> Q x y) -> Forall2 P l m -> Forall2 Q l m.
Proof. intros H HF. induction HF; constructor; auto. Qed.
Lemma crep_mono D tb X c f : crep D tb c f -> crep (D ++ X) tb c f.
Proof.
  intros H. destruct H; econstructor; eauto using krep_mono.
  - eapply Forall2_imp; [|eassumption]. intros; apply srep_mono; assumption.
  - eapply Forall2_imp; [|eassumption]. intros; apply erep_mono; assumption.
  - eapply Forall2_imp; [|eassumption]. intros; apply erep_mono; assumption.
Qed.
Lemma srep_ext D tb tb' s t : sk_ext tb tb' -> srep D tb s t -> srep D tb' s t.
Proof. intros Hx H. destruct H; [apply sr_inline; assumption|eapply sr_ptr; eauto using stored_ext]. Qed.
Lemma krep_ext D tb tb' dk kk k : sk_ext tb tb' -> krep D tb dk kk k -> krep D tb' dk kk k.
Proof.
  intros Hx H. destruct H.
  - apply kr_inline; assumption.
  - subst tb. destruct tb' as [t'|]; [|contradiction]. eapply kr_shared; eauto. eapply sk_ext_decode; eauto.
  - eapply kr_ptr; eauto.
Qed.
Lemma erep_ext D tb tb' d kt : sk_ext tb tb' -> erep D tb d kt -> erep D tb' d kt.
Proof. intros Hx [[kk H1] H2]. split; [exists kk; eapply krep_ext; eauto|eapply srep_ext; eauto]. Qed.
Lemma crep_ext D tb tb' c f : sk_ext tb tb' -> crep D tb c f -> crep D tb' c f.
Proof.
  intros Hx H. destruct H; econstructor; eauto using krep_ext.
  - eapply Forall2_imp; [|eassumption]. intros; eapply srep_ext; eauto.
  - eapply Forall2_imp; [|eassumption]. intros; eapply erep_ext; eauto.
  - eapply Forall2_imp; [|eassumption]. intros; eapply erep_ext; eauto.
Qed.

Lemma repr_bytes t bs : repr t bs -> all_bytes bs.
Proof. intros (_ & (H & _) & _). exact H. Qed.

Lemma srep_swf D tb s t : srep D tb s t -> swf (lenZ D) s /\ sbyte s.
Proof.
  intros H. destruct H as [t b0 b1 Hr|t t' off lim Ht Hs Hm].
  - split.
    + left. exists b0, b1. split; [reflexivity|]. eapply repr_scalar_byte; eauto.
    + unfold sbyte; cbn [nth]. apply repr_bytes in Hr. inversion Hr; assumption.
  - pose proof (stored_bounds _ _ _ _ _ Hs). pose proof (stored_lim _ _ _ _ _ Hs).
    split.
    + right. exists off. split; [reflexivity|]. lia.
    + unfold sbyte. rewrite mkptr_bytes by lia. cbn [nth]. unfold is_byte, MAX_WIDE in *. lia.
Qed.

(* ---------- slots of a finished collection ---------- *)

Lemma inline_slot_bytes wide b0 b1 : scalar_ty (type_of_byte b0) = true ->
  exists r, slot_bytes wide [b0; b1; 0; 0] = [b0; b1] ++ r.
Proof.
  intros H. unfold slot_bytes. rewrite scalar_not_ptr by exact H.
  destruct wide; [exists [0; 0]|exists []]; reflexivity.
Qed.

(** A slot written for [s] in the buffer [D'] extending [D]. *)
Lemma srep_slot D X tb wide s t q :
  srep D tb s t -> lenZ D <= q -> q mod 2 = 0 -> q <= MAX_WIDE ->
  slot_fits wide q s = true ->
  holds (D ++ X) q (slot_bytes wide (fix1 q s)) ->
  exists t', tsim t t' /\ slot (D ++ X) tb wide (lenZ D) q t'.
Proof.
  intros H Hq Hqe Hqm Hf Hh. destruct H as [t b0 b1 Hr|t t' off lim Ht Hs Hm].
  - exists t. split; [apply ts_refl|]. pose proof (repr_scalar_byte _ _ _ Hr) as Hsc.
    unfold fix1 in Hh. rewrite scalar_not_ptr in Hh by exact Hsc.
    destruct (inline_slot_bytes wide b0 b1 Hsc) as [r E]. rewrite E in Hh.
    eapply sl_inline; [exact Hr|]. eapply holds_app_l; exact Hh.
  - exists t'. split; [exact Ht|].
    pose proof (stored_bounds _ _ _ _ _ Hs). pose proof (stored_lim _ _ _ _ _ Hs) as [Hl He].
    assert (Ho : 0 <= off <= MAX_WIDE) by lia.
    unfold fix1 in Hh. rewrite is_ptr_mkptr, pointer_offset_mkptr in Hh by exact Ho.
    unfold slot_fits in Hf. rewrite is_ptr_mkptr, pointer_offset_mkptr in Hf by exact Ho.
    unfold slot_bytes in Hh.
    rewrite is_ptr_mkptr, pointer_offset_mkptr in Hh by lia.
    apply (sl_ptr _ _ wide (lenZ D) q t' (q - off) lim); try lia.
    + unfold ptr_limit, MAX_WIDE, MAX_NARROW in *. destruct wide; cbn [orb] in Hf; lia.
    + exact Hh.
    + replace (q - (q - off)) with off by lia. apply stored_mono. exact Hs.
Qed.

(* ---------- should_be_wide ---------- *)

Lemma array_wide_total dbg n vs : n < two32 -> Forall (swf n) vs -> 
  exists w, array_should_be_wide dbg n vs = Ret w.
Proof.
  intros Hn. induction vs as [|s vs IH]; intros H; [exists false; reflexivity|].
  inversion H as [|? ? Hs Hr]; subst. destruct (IH Hr) as [w Hw]. cbn [array_should_be_wide].
  destruct Hs as [(b0 & b1 & -> & Hsc)|(off & -> & Ho & _ & Hlt)].
  - rewrite scalar_not_ptr by exact Hsc. eauto.
  - rewrite is_ptr_mkptr by exact Ho. unfold actual_pointer_offset. rewrite pointer_offset_mkptr by exact Ho.
    unfold usize_sub. destruct (off <=? n) eqn:E; [|lia]. cbn [bind].
    destruct (MAX_NARROW <? wrap_u32 (n - off)); eauto.
Qed.

(** Whether the collection being closed survives being written: it is wide, or no pointer in
    it exceeds the narrow range and no slot holds an inline string, data blob or key. *)
Definition dk_sized (k : dictkey) : sized :=
  match k with
  | DKInline s => s
  | DKShared i => new_narrow (i / 256) (i mod 256)
  | DKPointer _ off => mkptr off
  end.
Fixpoint dict_slots (vs : list delem) : list sized :=
  match vs with
  | [] => []
  | d :: r => dk_sized (de_key d) :: de_val d :: dict_slots r
  end.

Definition top_fits (c : cfg) (e : enc) : bool :=
  match en_stack e with
  | CArr vs :: _ =>
      match array_should_be_wide (c_dbg c) (lenZ (en_out e)) vs with
      | Ret w => arr_fits w (lenZ (en_out e) + hdr_size (lenZ vs)) vs
      | _ => false
      end
  | CDict vs _ :: _ =>
      match dict_should_be_wide (c_dbg c) (lenZ (en_out e)) (lenZ (en_out e)) vs with
      | Ret w => arr_fits w (lenZ (en_out e) + hdr_size (lenZ vs)) (dict_slots (c_sort c vs))
      | _ => false
      end
  | [] => true
  end.

Lemma arr_fits_nth wide : forall vs q i s, arr_fits wide q vs = true -> nthZ vs i = Some s ->
  slot_fits wide (q + i * width_of wide) s = true.
Proof.
  induction vs as [|x vs IH]; intros q i s Hf Hi.
  - apply nthZ_Some in Hi. cbn in Hi. lia.
  - cbn [arr_fits] in Hf. apply andb_true_iff in Hf as [H1 H2]. apply nthZ_Some in Hi as Hb.
    destruct (Z.eq_dec i 0) as [->|Hne].
    + rewrite nthZ_cons_0 in Hi. injection Hi as <-. replace (q + 0 * width_of wide) with q by lia. exact H1.
    + rewrite nthZ_cons_S in Hi by lia. pose proof (IH _ _ _ H2 Hi) as E.
      replace (q + width_of wide + (i - 1) * width_of wide) with (q + i * width_of wide) in E by lia. exact E.
Qed.

Lemma Forall2_nthZ_l {A B} (R : A -> B -> Prop) l m i x :
  Forall2 R l m -> nthZ l i = Some x -> exists y, nthZ m i = Some y /\ R x y.
Proof.
  intros H. revert i. induction H as [|a b l m Hab H IH]; intros i Hi.
  - apply nthZ_Some in Hi. cbn in Hi. lia.
  - apply nthZ_Some in Hi as Hb. destruct (Z.eq_dec i 0) as [->|Hne].
    + rewrite nthZ_cons_0 in Hi. injection Hi as <-. exists b. split; [reflexivity|exact Hab].
    + rewrite nthZ_cons_S in Hi by lia. rewrite nthZ_cons_S by lia. apply IH; exact Hi.
Qed.
Lemma Forall2_lenZ {A B} (R : A -> B -> Prop) l m : Forall2 R l m -> lenZ l = lenZ m.
Proof. induction 1; [reflexivity|rewrite !lenZ_cons; lia]. Qed.
Lemma Forall2_sym {A B} (R : A -> B -> Prop) l m : Forall2 R l m -> Forall2 (fun b a => R a b) m l.
Proof. induction 1; constructor; auto. Qed.
Lemma Forall2_nthZ_r {A B} (R : A -> B -> Prop) l m i y :
  Forall2 R l m -> nthZ m i = Some y -> exists x, nthZ l i = Some x /\ R x y.
Proof. intros H Hi. apply Forall2_sym in H. apply (Forall2_nthZ_l _ _ _ _ _ H Hi). Qed.

Lemma Forall2_swf D tb vs ts : Forall2 (srep D tb) vs ts ->
  Forall (swf (lenZ D)) vs /\ Forall sbyte vs.
Proof.
  induction 1 as [|s t vs ts Hs H [IH1 IH2]]; [split; constructor|].
  apply srep_swf in Hs as [H1 H2]. split; constructor; auto.
Qed.

Lemma Forall2_of_choice {A B} (R : A -> B -> Prop) (l : list A) (m : list B) :
  lenZ m = lenZ l ->
  (forall i x, nthZ l i = Some x -> exists y, nthZ m i = Some y /\ R x y) -> Forall2 R l m.
Proof. apply nth_Forall2. Qed.

Lemma holds_hdr_slots D H S i bs :
  holds S i bs -> holds (D ++ H ++ S) (lenZ D + lenZ H + i) bs.
Proof.
  intros (a & b & -> & ->). exists (D ++ H ++ a), b. rewrite <- !app_assoc. split; [reflexivity|].
  rewrite !lenZ_app. lia.
Qed.

(** A finished array. *)
Lemma end_array_ok c e tb vs ts st :
  en_stack e = CArr vs :: st -> lenZ (en_out e) mod 2 = 0 ->
  Forall2 (srep (en_out e) tb) vs ts ->
  lenZ (en_out e) + hdr_size (lenZ vs) + lenZ vs * 4 <= MAX_WIDE ->
  top_fits c e = true ->
  exists X t' lim,
    end_array c e = finished_collection c (set_out (set_stack e st) (en_out e ++ X)) (lenZ (en_out e)) /\
    tsim (TArr ts) t' /\ stored (en_out e ++ X) tb t' (lenZ (en_out e)) lim /\
    lim = lenZ (en_out e ++ X) /\ lim mod 2 = 0 /\
    lim <= lenZ (en_out e) + hdr_size (lenZ vs) + lenZ vs * 4 /\
    forall w, array_should_be_wide (c_dbg c) (lenZ (en_out e)) vs = Ret w ->
      lim = lenZ (en_out e) + hdr_size (lenZ vs) + lenZ vs * width_of w.
Proof.
  intros Hst Hev Hvs Hmax Hfit. set (D := en_out e) in *.
  destruct (Forall2_swf _ _ _ _ Hvs) as [Hswf Hsb]. pose proof (lenZ_nonneg vs) as Hn0.
  pose proof (lenZ_nonneg D) as HD0.
  assert (Hmw : MAX_WIDE = 1073741823) by reflexivity.
  assert (Hn63 : 0 <= lenZ vs < two63) by (unfold two63; unfold hdr_size in Hmax;
     pose proof (varint_size_pos (lenZ vs)); destruct (2047 <=? lenZ vs); unfold two64 in *; try lia;
     unfold varint_size in *; destruct (lenZ vs =? 0); pose proof (Z.log2_nonneg (lenZ vs)); lia).
  pose proof (hdr_size_bounds (lenZ vs) ltac:(unfold two63, two64 in *; lia)) as [Hh1 Hh2].
  destruct (array_wide_total (c_dbg c) (lenZ D) vs) as [wide Hw]; [unfold two32; lia|exact Hswf|].
  unfold top_fits in Hfit. rewrite Hst in Hfit. fold D in Hfit. rewrite Hw in Hfit.
  assert (Hwb : 2 <= width_of wide <= 4 /\ width_of wide mod 2 = 0) by (destruct wide; cbn; lia).
  destruct (enc_write_hdr c (set_stack e st) false (lenZ vs) wide) as (pad & Ehdr & Elen);
    [exact Hev|exact Hn63|]. change (en_out (set_stack e st)) with D in Ehdr.
  set (H := hdr_bytes 96 (lenZ vs) wide ++ pad) in *.
  set (q := lenZ D + hdr_size (lenZ vs)) in *.
  set (S := slots_bytes wide q vs).
  assert (Hq : q + lenZ vs * width_of wide <= MAX_WIDE) by nia.
  assert (HSlen : lenZ S = lenZ vs * width_of wide)
    by (apply (slots_bytes_len wide (lenZ D)); [exact Hswf|lia|lia]).
  assert (Hrun : end_array c e =
     finished_collection c (set_out (set_stack e st) (D ++ H ++ S)) (lenZ D)).
  { unfold end_array. rewrite Hst. cbn [stack_pop]. change (en_out (set_stack e st)) with D.
    rewrite Hw; cbn [bind]. rewrite Ehdr; cbn [bind].
    rewrite set_out_out, lenZ_app, Elen. fold q.
    rewrite wrap_u32_id by (unfold two32; lia).
    rewrite (fix_array_ok (c_dbg c) wide (lenZ D)) by (assumption || lia). cbn [bind].
    rewrite (write_slots_ok c wide (lenZ D)); auto; try lia.
    - cbn [bind]. rewrite set_out_out, set_out_set_out. rewrite wrap_u32_id by (unfold two32; lia).
      rewrite <- app_assoc. reflexivity.
    - rewrite set_out_out, lenZ_app, Elen. reflexivity. }
  assert (Hslots : forall i t, nthZ ts i = Some t -> exists t', tsim t t' /\
     slot (D ++ H ++ S) tb wide (lenZ D) (q + i * width_of wide) t').
  { intros i t Ht. destruct (Forall2_nthZ_r _ _ _ _ _ Hvs Ht) as (s & Hs & Hrep).
    apply nthZ_Some in Hs as Hb.
    apply (srep_slot D (H ++ S) tb wide s t (q + i * width_of wide) Hrep); try nia.
    - eapply arr_fits_nth; eauto.
    - replace (q + i * width_of wide) with (lenZ D + lenZ H + i * width_of wide) at 1 by lia.
      apply holds_hdr_slots. apply (slots_bytes_nth wide (lenZ D)); auto; lia. }
  destruct (list_choice (fun i t t' => tsim t t' /\
     slot (D ++ H ++ S) tb wide (lenZ D) (q + i * width_of wide) t') ts Hslots) as (ts' & Hlt & Hts').
  pose proof (Forall2_lenZ _ _ _ Hvs) as Hlv.
  assert (Hlen : lenZ (D ++ H ++ S) = q + lenZ vs * width_of wide) by (rewrite !lenZ_app, Elen, HSlen; lia).
  exists (H ++ S), (TArr ts'), (q + lenZ vs * width_of wide). split; [exact Hrun|]. split; [|split; [|split; [|split]]].
  - apply ts_arr. apply Forall2_of_choice; [exact Hlt|].
    intros i t Ht. destruct (Hts' i t Ht) as (t' & H1 & H2 & _). eauto.
  - unfold q. replace (lenZ vs) with (lenZ ts') by lia. apply st_arr.
    + exact Hev.
    + replace (lenZ ts') with (lenZ vs) by lia. unfold H. rewrite <- app_assoc.
      apply holds_end'. reflexivity.
    + replace (lenZ ts') with (lenZ vs) by lia. fold q. lia.
    + intros i t' Ht'. replace (lenZ ts') with (lenZ vs) by lia. fold q.
      apply nthZ_Some in Ht' as Hb. destruct (nthZ_in ts i) as [t Ht]; [lia|].
      destruct (Hts' i t Ht) as (t2 & H1 & _ & H3). rewrite Ht' in H1. injection H1 as <-. exact H3.
  - symmetry; exact Hlen.
  - nia.
  - split; [nia|]. intros w Hw'. fold D in Hw'. rewrite Hw in Hw'. injection Hw' as <-. reflexivity.
Qed.

(* ---------- dicts ---------- *)

Lemma dk_shared_swf n i : 0 <= i <= 2047 ->
  swf n (new_narrow (i / 256) (i mod 256)) /\ sbyte (new_narrow (i / 256) (i mod 256)) /\
  u16_to_sized i = Some (new_narrow (i / 256) (i mod 256)).
Proof.
  intros Hi. unfold new_narrow, u16_to_sized. destruct (2047 <? i) eqn:E; [lia|].
  split; [|split; [unfold sbyte, is_byte; cbn [nth]; lia|reflexivity]].
  left. eexists; eexists; split; [reflexivity|]. rewrite type_short by lia. reflexivity.
Qed.

Lemma krep_swf D tb dk kk k : krep D tb dk kk k -> swf (lenZ D) (dk_sized dk) /\ sbyte (dk_sized dk).
Proof.
  intros H. destruct H as [k b0 b1 Hsp Hr|k i t Hi Ht Hd|k off bs Hsp Hr Hh He Hm]; cbn [dk_sized].
  - split.
    + left. exists b0, b1. split; [reflexivity|]. eapply repr_scalar_byte; eauto.
    + unfold sbyte; cbn [nth]. apply repr_bytes in Hr. inversion Hr; assumption.
  - destruct (dk_shared_swf (lenZ D) i Hi) as (H1 & H2 & _). auto.
  - pose proof (holds_bounds _ _ _ Hh). apply repr_len in Hr. split.
    + right. exists off. split; [reflexivity|]. lia.
    + unfold sbyte. rewrite mkptr_bytes by lia. cbn [nth]. unfold is_byte, MAX_WIDE in *. lia.
Qed.

Lemma erep_swf D tb vs kts : Forall2 (erep D tb) vs kts ->
  Forall (swf (lenZ D)) (dict_slots vs) /\ Forall sbyte (dict_slots vs).
Proof.
  induction 1 as [|d kt vs kts [[kk Hk] Hs] H [IH1 IH2]]; [split; constructor|].
  apply krep_swf in Hk as [H1 H2]. apply srep_swf in Hs as [H3 H4].
  cbn [dict_slots]. split; constructor; auto.
Qed.
Lemma dict_slots_len vs : lenZ (dict_slots vs) = 2 * lenZ vs.
Proof. induction vs; [reflexivity|]. cbn [dict_slots]. rewrite !lenZ_cons. lia. Qed.
Lemma dict_slots_nth : forall vs i d, nthZ vs i = Some d ->
  nthZ (dict_slots vs) (2 * i) = Some (dk_sized (de_key d)) /\
  nthZ (dict_slots vs) (2 * i + 1) = Some (de_val d).
Proof.
  induction vs as [|x vs IH]; intros i d Hi.
  - apply nthZ_Some in Hi. cbn in Hi. lia.
  - apply nthZ_Some in Hi as Hb. cbn [dict_slots]. destruct (Z.eq_dec i 0) as [->|Hne].
    + rewrite nthZ_cons_0 in Hi. injection Hi as <-. split; reflexivity.
    + rewrite nthZ_cons_S in Hi by lia. destruct (IH _ _ Hi) as [E1 E2].
      rewrite !nthZ_cons_S by lia.
      replace (2 * i - 1 - 1) with (2 * (i - 1)) by lia.
      replace (2 * i + 1 - 1 - 1) with (2 * (i - 1) + 1) by lia. auto.
Qed.

Definition fixk (q : Z) (k : dictkey) : dictkey :=
  match k with
  | DKPointer s off => DKPointer s (q - off)
  | _ => k
  end.
Fixpoint fixed_d (w q : Z) (vs : list delem) : list delem :=
  match vs with
  | [] => []
  | d :: r => mk_delem (fixk q (de_key d)) (fix1 (q + w) (de_val d)) :: fixed_d w (q + 2 * w) r
  end.

Definition kgood (n : Z) (k : dictkey) : Prop :=
  match k with
  | DKInline s => swf n s /\ is_ptr s = false
  | DKShared i => 0 <= i <= 2047
  | DKPointer _ off => 0 <= off < n
  end.
Lemma krep_kgood D tb dk kk k : krep D tb dk kk k -> kgood (lenZ D) dk.
Proof.
  intros H. pose proof (krep_swf _ _ _ _ _ H) as [Hs _].
  destruct H as [k b0 b1 Hsp Hr|k i t Hi Ht Hd|k off bs Hsp Hr Hh He Hm]; cbn [kgood dk_sized] in *.
  - split; [exact Hs|]. apply scalar_not_ptr. eapply repr_scalar_byte; eauto.
  - exact Hi.
  - pose proof (holds_bounds _ _ _ Hh). apply repr_len in Hr. lia.
Qed.

Lemma fix_dict_ok dbg wide n : forall vs q,
  Forall (fun d => kgood n (de_key d) /\ swf n (de_val d)) vs -> n <= q -> 0 <= q ->
  q + 2 * lenZ vs * width_of wide <= MAX_WIDE ->
  fix_dict_pointers dbg q (width_of wide) vs = Ret (fixed_d (width_of wide) q vs).
Proof.
  assert (Hw2 : 2 <= width_of wide <= 4) by (destruct wide; cbn; lia).
  induction vs as [|d vs IH]; intros q Hs Hn Hq0 Hq; [reflexivity|].
  rewrite lenZ_cons in Hq. pose proof (lenZ_nonneg vs). inversion Hs as [|? ? [Hk Hv] Hr]; subst.
  cbn [fix_dict_pointers fixed_d].
  assert (Ek : (match de_key d with
             | DKPointer s off => o <- u32_sub dbg q off ;; Ret (DKPointer s o)
             | k => Ret k
             end) = Ret (fixk q (de_key d))).
  { destruct (de_key d) as [s|i|s off]; cbn [fixk kgood] in *; try reflexivity.
    unfold u32_sub. destruct (off <=? q) eqn:E; [reflexivity|lia]. }
  rewrite Ek; cbn [bind]. unfold u32_add, two32. unfold MAX_WIDE in *.
  destruct (q + width_of wide <? 4294967296) eqn:E; [|nia]. cbn [bind].
  rewrite (fix1_ok dbg n (q + width_of wide) (de_val d)) by (assumption || unfold MAX_WIDE; nia). cbn [bind].
  destruct (q + width_of wide + width_of wide <? 4294967296) eqn:E2; [|nia]. cbn [bind].
  replace (q + width_of wide + width_of wide) with (q + 2 * width_of wide) by lia.
  rewrite IH by (assumption || nia). reflexivity.
Qed.

Lemma dictkey_sized_fixk n q k : kgood n k -> n <= q -> q <= MAX_WIDE ->
  dictkey_sized (fixk q k) = Ret (Some (fix1 q (dk_sized k))).
Proof.
  intros Hk Hn Hq. destruct k as [s|i|s off]; cbn [fixk dictkey_sized dk_sized kgood] in *.
  - destruct Hk as [Hs Hp]. unfold fix1. rewrite Hp. reflexivity.
  - destruct (dk_shared_swf 0 i Hk) as (Hs & _ & ->). unfold fix1.
    destruct Hs as [(b0 & b1 & E & Hsc)|(off & _ & Hbad1 & _ & Hbad)]; [|lia].
    rewrite E, scalar_not_ptr by exact Hsc. reflexivity.
  - assert (Ho : 0 <= off <= MAX_WIDE) by lia. unfold fix1. rewrite is_ptr_mkptr, pointer_offset_mkptr by exact Ho.
    rewrite new_pointer_ok by lia. reflexivity.
Qed.

Lemma write_entries_ok c wide n : forall vs e q e',
  Forall (fun d => kgood n (de_key d) /\ swf n (de_val d)) vs -> n <= q ->
  q + 2 * lenZ vs * width_of wide <= MAX_WIDE + 1 ->
  write_slots c e wide (fixed (width_of wide) q (dict_slots vs)) = Ret e' ->
  write_entries c e wide (fixed_d (width_of wide) q vs) = Ret (e', Ok tt).
Proof.
  assert (Hw2 : 2 <= width_of wide <= 4) by (destruct wide; cbn; lia).
  induction vs as [|d vs IH]; intros e q e' Hs Hn Hq Hrun.
  - cbn [dict_slots fixed write_slots fixed_d write_entries] in *. congruence.
  - rewrite lenZ_cons in Hq. pose proof (lenZ_nonneg vs). inversion Hs as [|? ? [Hk Hv] Hr]; subst.
    cbn [dict_slots fixed write_slots] in Hrun. cbn [fixed_d write_entries de_key de_val].
    rewrite (dictkey_sized_fixk n q) by (assumption || nia). cbn [bind].
    destruct (enc_write c e (ESized (fix1 q (dk_sized (de_key d)))) wide false) as [r1| | |]; try discriminate.
    cbn [bind] in *.
    destruct (enc_write c (fst r1) (ESized (fix1 (q + width_of wide) (de_val d))) wide false) as [r2| | |]; try discriminate.
    cbn [bind] in *. replace (q + width_of wide + width_of wide) with (q + 2 * width_of wide) in Hrun by lia.
    apply IH; auto; nia.
Qed.

Lemma dict_wide_total dbg n : n < two32 -> forall vs len, n <= len ->
  Forall (fun d => kgood n (de_key d) /\ swf n (de_val d)) vs ->
  exists w, dict_should_be_wide dbg n len vs = Ret w.
Proof.
  intros Hn. induction vs as [|d vs IH]; intros len Hlen H; [exists false; reflexivity|].
  inversion H as [|? ? [Hk Hv] Hr]; subst. destruct (IH (len + 2)) as [w Hw]; [lia|exact Hr|]. cbn [dict_should_be_wide].
  assert (Hcv : exists w', (if is_ptr (de_val d) then
          off <- actual_pointer_offset dbg (de_val d) n ;;
          if MAX_NARROW <? off then Ret true
          else dict_should_be_wide dbg n (len + 2) vs
        else dict_should_be_wide dbg n (len + 2) vs) = Ret w').
  { destruct Hv as [(b0 & b1 & -> & Hsc)|(off & -> & Ho & _ & Hlt)].
    - rewrite scalar_not_ptr by exact Hsc. eauto.
    - rewrite is_ptr_mkptr by exact Ho. unfold actual_pointer_offset. rewrite pointer_offset_mkptr by exact Ho.
      unfold usize_sub. destruct (off <=? n) eqn:E; [|lia]. cbn [bind].
      destruct (MAX_NARROW <? wrap_u32 (n - off)); eauto. }
  destruct (de_key d) as [s|i|s off]; cbn [kgood] in Hk; try exact Hcv.
  unfold usize_sub. destruct (off <=? len) eqn:E1; [|lia]. cbn [bind].
  destruct (len - off <=? len) eqn:E2; [|lia]. cbn [bind].
  destruct (MAX_NARROW <? len - (len - off)); [eauto|exact Hcv].
Qed.

Lemma Permutation_Forall2_l {A B} (R : A -> B -> Prop) (l l' : list A) (m : list B) :
  Permutation l l' -> Forall2 R l m -> exists m', Permutation m m' /\ Forall2 R l' m'.
Proof.
  intros HP. revert m. induction HP as [|x l l' HP IH|x y l|l l' l'' HP1 IH1 HP2 IH2]; intros m HF.
  - inversion HF; subst. exists []. split; [constructor|constructor].
  - inversion HF as [|? b ? m0 Hxb HF']; subst. destruct (IH m0 HF') as (m' & H1 & H2).
    exists (b :: m'). split; constructor; assumption.
  - inversion HF as [|? b ? m0 Hb HF']; subst. inversion HF' as [|? b2 ? m1 Hb2 HF'']; subst.
    exists (b2 :: b :: m1). split; [constructor|repeat constructor; assumption].
  - destruct (IH1 m HF) as (m1 & H1 & H2). destruct (IH2 m1 H2) as (m2 & H3 & H4).
    exists m2. split; [etransitivity; eauto|exact H4].
Qed.

(** The encoder's key order is the reader's. *)
Lemma sized_str_inline k b0 b1 : repr (TStr k) [b0; b1] -> sized_str [b0; b1; 0; 0] = k.
Proof.
  intros Hr. unfold sized_str.
  assert (Hh : holds [b0; b1; 0; 0] 0 [b0; b1]) by (exists [], [0; 0]; split; reflexivity).
  destruct (repr_str_type k [b0; b1] (mk_env false 0 [b0; b1; 0; 0] None) 0 4 Hr Hh) as [_ E]; [cbn; lia|].
  rewrite E. reflexivity.
Qed.
Lemma krep_cmp D tb a ka sa b kb sb :
  krep D tb a ka sa -> krep D tb b kb sb -> enc_key_cmp a b = dkey_cmp ka kb.
Proof.
  intros Ha Hb. destruct Ha; destruct Hb; cbn [enc_key_cmp dkey_cmp dictkey_str];
    rewrite ?(sized_str_inline k), ?(sized_str_inline k0) by assumption; reflexivity.
Qed.

Lemma krep_slot D X tb wide dk kk k q :
  krep D tb dk kk k -> lenZ D <= q -> q mod 2 = 0 -> q <= MAX_WIDE ->
  slot_fits wide q (dk_sized dk) = true ->
  holds (D ++ X) q (slot_bytes wide (fix1 q (dk_sized dk))) ->
  key_slot (D ++ X) tb wide (lenZ D) q kk k.
Proof.
  intros H Hq Hqe Hqm Hf Hh. destruct H as [k b0 b1 Hsp Hr|k i t Hi Ht Hd|k off bs Hsp Hr Hh2 He Hm]; cbn [dk_sized] in *.
  - pose proof (repr_scalar_byte _ _ _ Hr) as Hsc.
    unfold fix1 in Hh. rewrite scalar_not_ptr in Hh by exact Hsc.
    destruct (inline_slot_bytes wide b0 b1 Hsc) as [r E]. rewrite E in Hh.
    eapply ks_inline; [exact Hsp|exact Hr|]. eapply holds_app_l; exact Hh.
  - assert (Hsc : scalar_ty (type_of_byte (i / 256)) = true) by (rewrite type_short by lia; reflexivity).
    unfold fix1, new_narrow in Hh. rewrite scalar_not_ptr in Hh by exact Hsc.
    destruct (inline_slot_bytes wide (i / 256) (i mod 256) Hsc) as [r E]. rewrite E in Hh.
    eapply ks_shared; eauto. apply holds_app_l in Hh. unfold short_bytes, wrap_u16, two16.
    replace ((i mod 65536 / 256) mod 16) with (i / 256) by lia.
    replace ((i mod 65536) mod 256) with (i mod 256) by lia. exact Hh.
  - pose proof (holds_bounds _ _ _ Hh2). pose proof (repr_len _ _ Hr).
    assert (Ho : 0 <= off <= MAX_WIDE) by lia.
    unfold fix1 in Hh. rewrite is_ptr_mkptr, pointer_offset_mkptr in Hh by exact Ho.
    unfold slot_fits in Hf. rewrite is_ptr_mkptr, pointer_offset_mkptr in Hf by exact Ho.
    unfold slot_bytes in Hh. rewrite is_ptr_mkptr, pointer_offset_mkptr in Hh by lia.
    apply (ks_ptr _ _ wide (lenZ D) q k (q - off) bs); try exact Hsp; try lia.
    + unfold ptr_limit, MAX_WIDE, MAX_NARROW in *. destruct wide; cbn [orb] in Hf; lia.
    + exact Hh.
    + exact Hr.
    + replace (q - (q - off)) with off by lia. apply holds_mono. exact Hh2.
Qed.

Lemma StronglySorted_nth {A} (R : A -> A -> Prop) l :
  (forall i j x y, i < j -> nthZ l i = Some x -> nthZ l j = Some y -> R x y) -> StronglySorted R l.
Proof.
  induction l as [|a l IH]; intros H; [constructor|]. constructor.
  - apply IH. intros i j x y Hij Hi Hj. apply (H (i + 1) (j + 1)); [lia| |].
    + apply nthZ_Some in Hi as Hb. rewrite nthZ_cons_S by lia. replace (i + 1 - 1) with i by lia. exact Hi.
    + apply nthZ_Some in Hj as Hb. rewrite nthZ_cons_S by lia. replace (j + 1 - 1) with j by lia. exact Hj.
  - apply Forall_forall. intros y Hy. apply In_nth_error in Hy as [n Hn].
    apply (H 0 (Z.of_nat n + 1) a y); [lia|reflexivity|].
    rewrite nthZ_cons_S by lia. unfold nthZ. destruct (Z.of_nat n + 1 - 1 <? 0) eqn:E; [lia|].
    replace (Z.to_nat (Z.of_nat n + 1 - 1)) with n by lia. exact Hn.
Qed.
Lemma StronglySorted_nth_inv {A} (R : A -> A -> Prop) l : StronglySorted R l ->
  forall i j x y, i < j -> nthZ l i = Some x -> nthZ l j = Some y -> R x y.
Proof.
  induction 1 as [|a l HS IH HF]; intros i j x y Hij Hi Hj.
  - apply nthZ_Some in Hi. cbn in Hi. lia.
  - apply nthZ_Some in Hi as Hb. rewrite (nthZ_cons_S a l j) in Hj by lia.
    destruct (Z.eq_dec i 0) as [->|Hne].
    + rewrite nthZ_cons_0 in Hi. injection Hi as <-. eapply nthZ_Forall; eauto.
    + rewrite nthZ_cons_S in Hi by lia. eapply (IH (i - 1) (j - 1)); eauto. lia.
Qed.

Lemma Permutation_lenZ {A} (l m : list A) : Permutation l m -> lenZ l = lenZ m.
Proof. intros H. unfold lenZ. rewrite (Permutation_length H). reflexivity. Qed.

(** A finished dict. *)
Lemma end_dict_ok c e tb vs kts st :
  sort_ok (c_sort c) ->
  en_stack e = CDict vs None :: st -> lenZ (en_out e) mod 2 = 0 ->
  Forall2 (erep (en_out e) tb) vs kts ->
  lenZ (en_out e) + hdr_size (lenZ vs) + 2 * lenZ vs * 4 <= MAX_WIDE ->
  top_fits c e = true ->
  exists X t' lim,
    end_dict c e = finished_collection c (set_out (set_stack e st) (en_out e ++ X)) (lenZ (en_out e)) /\
    tsim (TDict kts) t' /\ stored (en_out e ++ X) tb t' (lenZ (en_out e)) lim /\
    lim = lenZ (en_out e ++ X) /\ lim mod 2 = 0 /\
    lim <= lenZ (en_out e) + hdr_size (lenZ vs) + 2 * lenZ vs * 4 /\
    forall w, dict_should_be_wide (c_dbg c) (lenZ (en_out e)) (lenZ (en_out e)) vs = Ret w ->
      lim = lenZ (en_out e) + hdr_size (lenZ vs) + 2 * lenZ vs * width_of w.
Proof.
  intros Hsort Hst Hev Hvs0 Hmax Hfit. set (D := en_out e) in *.
  destruct (Hsort vs) as [Hperm Hsorted]. set (vs' := c_sort c vs) in *.
  destruct (Permutation_Forall2_l _ _ _ _ Hperm Hvs0) as (kts' & Hpk & Hvs).
  pose proof (Permutation_lenZ _ _ Hperm) as Hlp.
  destruct (erep_swf _ _ _ _ Hvs) as [Hswf Hsb]. pose proof (lenZ_nonneg vs) as Hn0.
  pose proof (lenZ_nonneg D) as HD0.
  assert (Hgood : forall l m, Forall2 (erep D tb) l m -> Forall (fun d => kgood (lenZ D) (de_key d) /\ swf (lenZ D) (de_val d)) l).
  { clear. intros l m H. induction H as [|d kt l m [[kk Hk] Hs] H IH]; [constructor|].
    constructor; [|exact IH]. split; [eapply krep_kgood; eauto|]. apply srep_swf in Hs as [Hs _]. exact Hs. }
  pose proof (Hgood _ _ Hvs0) as Hg0. pose proof (Hgood _ _ Hvs) as Hg.
  assert (Hmw : MAX_WIDE = 1073741823) by reflexivity.
  assert (Hn63 : 0 <= lenZ vs < two63) by (unfold two63; unfold hdr_size in Hmax;
     pose proof (varint_size_pos (lenZ vs)); destruct (2047 <=? lenZ vs); unfold two64 in *; try lia;
     unfold varint_size in *; destruct (lenZ vs =? 0); pose proof (Z.log2_nonneg (lenZ vs)); lia).
  pose proof (hdr_size_bounds (lenZ vs) ltac:(unfold two63, two64 in *; lia)) as [Hh1 Hh2].
  destruct (dict_wide_total (c_dbg c) (lenZ D) ltac:(unfold two32; lia) vs (lenZ D) ltac:(lia) Hg0) as [wide Hw].
  unfold top_fits in Hfit. rewrite Hst in Hfit. fold D in Hfit. rewrite Hw in Hfit. fold vs' in Hfit.
  assert (Hwb : 2 <= width_of wide <= 4 /\ width_of wide mod 2 = 0) by (destruct wide; cbn; lia).
  destruct (enc_write_hdr c (set_stack e st) true (lenZ vs) wide) as (pad & Ehdr & Elen);
    [exact Hev|exact Hn63|]. change (en_out (set_stack e st)) with D in Ehdr.
  set (H := hdr_bytes 112 (lenZ vs) wide ++ pad) in *.
  set (q := lenZ D + hdr_size (lenZ vs)) in *.
  set (sl := dict_slots vs') in *.
  assert (Hsl : lenZ sl = 2 * lenZ vs) by (unfold sl; rewrite dict_slots_len; lia).
  set (S := slots_bytes wide q sl).
  assert (Hq : q + lenZ sl * width_of wide <= MAX_WIDE) by nia.
  assert (HSlen : lenZ S = lenZ sl * width_of wide)
    by (apply (slots_bytes_len wide (lenZ D)); [exact Hswf|lia|lia]).
  assert (Hrun : end_dict c e =
     finished_collection c (set_out (set_stack e st) (D ++ H ++ S)) (lenZ D)).
  { unfold end_dict. rewrite Hst. change (en_out (set_stack e st)) with D.
    rewrite Hw; cbn [bind]. rewrite Ehdr; cbn [bind].
    rewrite set_out_out, lenZ_app, Elen. fold q. fold vs'.
    rewrite (wrap_u32_id q) by (unfold two32; lia).
    rewrite (fix_dict_ok (c_dbg c) wide (lenZ D)) by (assumption || nia). cbn [bind].
    unfold eseq. erewrite (write_entries_ok c wide (lenZ D) vs'); [|exact Hg|lia|nia|].
    2:{ apply (write_slots_ok c wide (lenZ D)); auto; try lia;
          [rewrite set_out_out, lenZ_app, Elen; reflexivity|fold sl; lia]. }
    cbn [bind fst snd]. rewrite set_out_out, set_out_set_out.
    rewrite wrap_u32_id by (unfold two32; lia). rewrite <- app_assoc. reflexivity. }
  assert (Hslot : forall i s, nthZ sl i = Some s ->
     slot_fits wide (q + i * width_of wide) s = true /\
     holds (D ++ H ++ S) (q + i * width_of wide) (slot_bytes wide (fix1 (q + i * width_of wide) s))).
  { intros i s Hs. split; [eapply arr_fits_nth; eauto|].
    replace (q + i * width_of wide) with (lenZ D + lenZ H + i * width_of wide) at 1 by lia.
    apply holds_hdr_slots. apply (slots_bytes_nth wide (lenZ D)); auto; lia. }
  assert (Hent : forall i d, nthZ vs' i = Some d -> exists en : entry,
     (exists kt, nthZ kts' i = Some kt /\ fst kt = fst (snd en) /\ tsim (snd kt) (snd (snd en))) /\
     krep D tb (de_key d) (fst en) (fst (snd en)) /\
     key_slot (D ++ H ++ S) tb wide (lenZ D) (q + 2 * i * width_of wide) (fst en) (fst (snd en)) /\
     slot (D ++ H ++ S) tb wide (lenZ D) (q + (2 * i + 1) * width_of wide) (snd (snd en))).
  { intros i d Hd. destruct (Forall2_nthZ_l _ _ _ _ _ Hvs Hd) as ([k t] & Hkt & [[kk Hk] Hs]).
    cbn [fst snd] in *. apply nthZ_Some in Hd as Hb. destruct (dict_slots_nth _ _ _ Hd) as [Hs1 Hs2].
    fold sl in Hs1, Hs2. destruct (Hslot _ _ Hs1) as [F1 B1]. destruct (Hslot _ _ Hs2) as [F2 B2].
    destruct (srep_slot D (H ++ S) tb wide (de_val d) t (q + (2 * i + 1) * width_of wide) Hs) as (t' & Ht' & Hsl'); auto; try nia.
    exists (kk, (k, t')). cbn [fst snd]. split; [exists (k, t); auto|]. split; [exact Hk|].
    split; [|exact Hsl'].
    apply (krep_slot D (H ++ S) tb wide (de_key d)); auto; nia. }
  destruct (list_choice (fun i d (en : entry) =>
     (exists kt, nthZ kts' i = Some kt /\ fst kt = fst (snd en) /\ tsim (snd kt) (snd (snd en))) /\
     krep D tb (de_key d) (fst en) (fst (snd en)) /\
     key_slot (D ++ H ++ S) tb wide (lenZ D) (q + 2 * i * width_of wide) (fst en) (fst (snd en)) /\
     slot (D ++ H ++ S) tb wide (lenZ D) (q + (2 * i + 1) * width_of wide) (snd (snd en))) vs' Hent)
    as (ens & Hle & Hens).
  pose proof (Forall2_lenZ _ _ _ Hvs) as Hlv.
  assert (Hlen : lenZ (D ++ H ++ S) = q + 2 * lenZ vs * width_of wide) by (rewrite !lenZ_app, Elen, HSlen; nia).
  assert (Hnth : forall i (en : entry), nthZ ens i = Some en -> exists d, nthZ vs' i = Some d /\
     (exists kt, nthZ kts' i = Some kt /\ fst kt = fst (snd en) /\ tsim (snd kt) (snd (snd en))) /\
     krep D tb (de_key d) (fst en) (fst (snd en)) /\
     key_slot (D ++ H ++ S) tb wide (lenZ D) (q + 2 * i * width_of wide) (fst en) (fst (snd en)) /\
     slot (D ++ H ++ S) tb wide (lenZ D) (q + (2 * i + 1) * width_of wide) (snd (snd en))).
  { intros i en Hen. apply nthZ_Some in Hen as Hb. destruct (nthZ_in vs' i) as [d Hd]; [lia|].
    destruct (Hens i d Hd) as (en' & E & R). rewrite Hen in E. injection E as <-. exists d. auto. }
  exists (H ++ S), (TDict (map snd ens)), (q + 2 * lenZ vs * width_of wide). split; [exact Hrun|].
  split; [|split; [|split; [|split]]].
  - apply (ts_dict kts kts'); [exact Hpk|]. apply nth_Forall2; [rewrite lenZ_map; unfold entry in *; lia|].
    intros i kt Hkt. destruct (Forall2_nthZ_r _ _ _ _ _ Hvs Hkt) as (d & Hd & _).
    destruct (Hens i d Hd) as (en & E & (kt' & Hkt' & H1 & H2) & _). rewrite Hkt in Hkt'. injection Hkt' as <-.
    exists (snd en). rewrite nthZ_map. change (@nthZ (dkey * (list Z * tree)) ens i) with (@nthZ entry ens i).
    rewrite E. auto.
  - assert (Hl3 : lenZ ens = lenZ vs) by lia. unfold q. rewrite <- Hl3. apply st_dict.
    + exact Hev.
    + rewrite Hl3. unfold H. rewrite <- app_assoc. apply holds_end'. reflexivity.
    + rewrite Hl3. fold q. lia.
    + apply StronglySorted_nth. intros i j x y Hij Hi Hj.
      destruct (Hnth _ _ Hi) as (dx & Hdx & _ & Hkx & _). destruct (Hnth _ _ Hj) as (dy & Hdy & _ & Hky & _).
      unfold key_le. rewrite <- (krep_cmp _ _ _ _ _ _ _ _ Hkx Hky).
      apply (StronglySorted_nth_inv _ _ Hsorted i j dx dy Hij Hdx Hdy).
    + intros i kk k t Hi. rewrite Hl3. fold q. destruct (Hnth _ _ Hi) as (d & _ & _ & _ & Hks & _). exact Hks.
    + intros i kk k t Hi. rewrite Hl3. fold q. destruct (Hnth _ _ Hi) as (d & _ & _ & _ & _ & Hsl2). exact Hsl2.
  - symmetry; exact Hlen.
  - nia.
  - split; [nia|]. intros w Hw'. fold D in Hw'. rewrite Hw in Hw'. injection Hw' as <-. reflexivity.
Qed.
End KP.

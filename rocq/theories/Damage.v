(** A pointer that does not fit its narrow slot is noticed when the document is read, as long as the
    document is smaller than 128 KiB. *)
From Verif Require Import Prelude Lib Varint VarintProofs Utf8 Float SharedKeys Decode Read Encodable Encoder BuilderSpec LayoutSpec TotalSpec
  Holds Repr EncodableProofs Stored StoredRead SlotProofs EncoderProofs EncoderInv EncoderClean EncoderProtocol EncoderLimit EncoderTotal.
From Coq Require Import ZifyBool ZifyNat ZifyN Sorted Permutation.
Ltac Zify.zify_post_hook ::= Z.div_mod_to_equations.

(* ---------- what validation answers for the value at a position ---------- *)

Inductive chk (D : list Z) : Z -> Z -> bool -> Prop :=
| ck_scalar t bs p : repr t bs -> holds D p bs -> p mod 2 = 0 -> chk D p (p + lenZ bs) true
| ck_good (is_dict : bool) m wide p n q :
    0 <= m -> n = (if is_dict then 2 * m else m) -> q = p + hdr_size m -> p mod 2 = 0 ->
    holds D p (hdr_bytes (if is_dict then 112 else 96) m wide) ->
    q + n * width_of wide <= lenZ D ->
    (forall j, 0 <= j < n -> cslot D wide p (q + j * width_of wide) true) ->
    chk D p (q + n * width_of wide) true
| ck_bad (is_dict : bool) m wide p n q i :
    0 <= m -> n = (if is_dict then 2 * m else m) -> q = p + hdr_size m -> p mod 2 = 0 ->
    holds D p (hdr_bytes (if is_dict then 112 else 96) m wide) ->
    q + n * width_of wide <= lenZ D -> 0 <= i < n ->
    (forall j, 0 <= j < i -> cslot D wide p (q + j * width_of wide) true) ->
    cslot D wide p (q + i * width_of wide) false ->
    chk D p (q + n * width_of wide) false
with cslot (D : list Z) : bool -> Z -> Z -> bool -> Prop :=
| cs_inline wide b q t b0 b1 : repr t [b0; b1] -> holds D q [b0; b1] -> cslot D wide b q true
| cs_ptr wide b q off lim r :
    0 < off -> off mod 2 = 0 -> off / 2 < ptr_limit wide ->
    holds D q (ptr_bytes wide off) -> chk D (q - off) lim r -> lim <= b -> cslot D wide b q r
| cs_zero b q : holds D q [128; 0] -> cslot D false b q false.

Scheme chk_ind2 := Minimality for chk Sort Prop
  with cslot_ind2 := Minimality for cslot Sort Prop.
Combined Scheme chk_cslot_ind from chk_ind2, cslot_ind2.

Lemma chk_mono_aux D X :
  (forall p lim r, chk D p lim r -> chk (D ++ X) p lim r) /\
  (forall w b q r, cslot D w b q r -> cslot (D ++ X) w b q r).
Proof.
  pose proof (lenZ_nonneg X).
  apply (chk_cslot_ind D (fun p lim r => chk (D ++ X) p lim r) (fun w b q r => cslot (D ++ X) w b q r)); intros.
  - eapply ck_scalar; eauto using holds_mono.
  - eapply ck_good; eauto using holds_mono. rewrite lenZ_app; lia.
  - eapply ck_bad; eauto using holds_mono. rewrite lenZ_app; lia.
  - eapply cs_inline; eauto using holds_mono.
  - eapply cs_ptr; eauto using holds_mono.
  - apply cs_zero. apply holds_mono. assumption.
Qed.
Lemma chk_mono D X p lim r : chk D p lim r -> chk (D ++ X) p lim r.
Proof. apply chk_mono_aux. Qed.

Lemma hdr_size_2 m : 2 <= hdr_size m.
Proof.
  unfold hdr_size. destruct (2047 <=? m); [|lia]. unfold varint_size. destruct (m =? 0); [lia|].
  pose proof (Z.log2_nonneg m). lia.
Qed.
Lemma chk_bounds D p lim r : chk D p lim r -> 0 <= p /\ p + 2 <= lim /\ lim <= lenZ D /\ p mod 2 = 0.
Proof.
  intros H. destruct H as [t bs p Hr Hh Hp|is_dict m wide p n q Hm Hn Hq Hp Hh Hl _|is_dict m wide p n q i Hm Hn Hq Hp Hh Hl Hi _ _].
  - apply holds_bounds in Hh. apply repr_len in Hr. lia.
  - apply holds_bounds in Hh. pose proof (hdr_size_2 m). pose proof (width_bounds wide). assert (0 <= n) by (subst n; destruct is_dict; lia). nia.
  - apply holds_bounds in Hh. pose proof (hdr_size_2 m). pose proof (width_bounds wide). assert (0 <= n) by (subst n; destruct is_dict; lia). nia.
Qed.

Lemma chk_nonptr e p len lim r : env_ok e -> chk (e_data e) p lim r -> lim <= p + len -> nonptr e (V p len).
Proof.
  intros Hok H Hl. pose proof (chk_bounds _ _ _ _ H) as (Hp0 & _).
  assert (Hc : forall (is_dict : bool) m wide n q, 0 <= m -> n = (if is_dict then 2 * m else m) -> q = p + hdr_size m ->
    holds (e_data e) p (hdr_bytes (if is_dict then 112 else 96) m wide) -> q + n * width_of wide <= lenZ (e_data e) ->
    q + n * width_of wide <= p + len -> nonptr e (V p len)).
  { intros is_dict m wide n q Hm Hn Hq Hh Hd Hle. pose proof (width_bounds wide). assert (0 <= n) by (subst n; destruct is_dict; lia).
    subst n q. destruct (hdr_coll_at e p len is_dict m wide Hok Hm Hh Hd) as [Ht _ _ _ _ _ _ _]; [nia|].
    eexists. split; [exact Ht|]. destruct is_dict; discriminate. }
  inversion H; subst; eauto.
  eapply repr_type_nonptr; eauto. lia.
Qed.

Definition verdict (r : bool) : result unit decode_error := if r then Ok tt else Err PointerOffsetZero.

Lemma elems_loop_err step w er : forall m k i n cur,
  (m < k)%nat -> Z.of_nat m < n - i ->
  (forall j, 0 <= j < Z.of_nat m -> step (cur + j * w) = Ret (Ok tt)) -> step (cur + Z.of_nat m * w) = Ret (Err er) ->
  elems_loop step k i n cur w = Ret (Err er).
Proof.
  induction m as [|m IH]; intros k i n cur Hk Hm H1 H2; (destruct k; [lia|]); cbn [elems_loop]; (destruct (i <? n) eqn:E; [|lia]).
  - replace (cur + Z.of_nat 0 * w) with cur in H2 by lia. rewrite H2. reflexivity.
  - replace cur with (cur + 0 * w) at 1 by lia. rewrite H1 by lia. cbn [bindr].
    apply IH; [lia|lia| |].
    + intros j Hj. replace (cur + w + j * w) with (cur + (j + 1) * w) by lia. apply H1; lia.
    + rewrite <- H2. f_equal. lia.
Qed.

Lemma validate_coll_bad e f is_elem is_wide v ty n wide first dend i :
  env_ok e -> coll_at e v ty n wide first -> ty = TyArray \/ ty = TyDict ->
  first + n * width_of wide <= dend -> 0 <= i < n ->
  (forall j, 0 <= j < i ->
     exists x, from_raw e (first + j * width_of wide) (width_of wide) = Ret (Ok x) /\
       validate f e true wide x (first + j * width_of wide + width_of wide) = Ret (Ok tt)) ->
  (exists x, from_raw e (first + i * width_of wide) (width_of wide) = Ret (Ok x) /\
       validate f e true wide x (first + i * width_of wide + width_of wide) = Ret (Err PointerOffsetZero)) ->
  validate (S f) e is_elem is_wide v dend = Ret (Err PointerOffsetZero).
Proof.
  intros (Hb0 & Hb1 & H63) [Ht Hw Hl Hf H2 Hn He Hp] Hty Hend Hi H Hbad.
  pose proof (width_bounds wide) as [Hwb _].
  assert (Hnw : 0 <= n * width_of wide) by nia.
  assert (Hgo : (wide0 <- arr_is_wide e v ;;
          let width := width_of wide0 in
          n0 <- arr_len e v ;;
          fp <- first_pos e v ;;
          let first0 := v_pos v + fp in
          bytes <- usize_mul (e_dbg e) n0 width ;;
          lim <- usize_add (e_dbg e) (e_base e + first0) bytes ;;
          if e_base e + dend <? lim then
            _ <- usize_sub (e_dbg e) (e_base e + dend) (e_base e + first0) ;;
            Ret (Err ArrayOutOfBounds)
          else
            elems_loop
              (fun cur =>
                 x <-? from_raw e cur width ;;
                 validate f e true wide0 x (cur + width))
              (S (S (length (e_data e)))) 0 n0 first0 width) = Ret (Err PointerOffsetZero)).
  { rewrite Hw; cbn [bind]. cbv zeta. rewrite Hl; cbn [bind]. rewrite Hf; cbn [bind].
    replace (v_pos v + (first - v_pos v)) with first by lia.
    unfold usize_mul, usize_add. unfold two63, two64 in *.
    destruct (n * width_of wide <? 18446744073709551616) eqn:E1; [|lia]. cbn [bind].
    destruct (e_base e + first + n * width_of wide <? 18446744073709551616) eqn:E2; [|lia]. cbn [bind].
    destruct (e_base e + dend <? e_base e + first + n * width_of wide) eqn:E3; [lia|].
    apply (elems_loop_err _ _ _ (Z.to_nat i)); [unfold lenZ in *; nia|lia| |].
    - intros j Hj. destruct (H j) as (x & Hx & Hv); [lia|]. rewrite Hx; cbn [bindr]. exact Hv.
    - rewrite Z2Nat.id by lia. destruct Hbad as (x & Hx & Hv). rewrite Hx; cbn [bindr]. exact Hv. }
  cbn [validate]. rewrite Ht; cbn [bind]. destruct Hty as [-> | ->]; exact Hgo.
Qed.

Lemma validate_ptr_any e f is_elem wide q off dend r :
  env_ok e -> 0 < off -> off mod 2 = 0 -> off / 2 < ptr_limit wide ->
  holds (e_data e) q (ptr_bytes wide off) -> off <= q ->
  nonptr e (V (q - off) off) ->
  validate f e false wide (V (q - off) off) q = Ret r ->
  from_raw e q (width_of wide) = Ret (Ok (V q (width_of wide))) /\
  validate (S f) e is_elem wide (V q (width_of wide)) dend = Ret r.
Proof.
  intros Hok Ho He Hlt Hh Hle Hn Hv. pose proof (width_bounds wide) as [Hw _].
  assert (Hty : value_type e (V q (width_of wide)) = Ret TyPointer)
    by (apply (ptr_type e q (width_of wide) wide off); auto; lia).
  split.
  - apply (from_raw_ok e q (width_of wide) 2); [lia| |lia].
    unfold required_size. rewrite Hty; reflexivity.
  - cbn [validate]. rewrite Hty; cbn [bind]. destruct (fuel_of_S e) as [g ->].
    rewrite (deref_checked_ok e q (width_of wide) off wide) by (assumption || lia). cbn [bindr v_pos]. exact Hv.
Qed.

Lemma chk_validate_aux e : env_ok e ->
  (forall p lim r, chk (e_data e) p lim r ->
     forall f w len dend, p + 1 < Z.of_nat f -> lim <= p + len -> lim <= dend ->
       validate f e false w (V p len) dend = Ret (verdict r)) /\
  (forall wide b q r, cslot (e_data e) wide b q r ->
     b <= q -> forall f dend, 0 <= b < Z.of_nat f ->
       exists x, from_raw e q (width_of wide) = Ret (Ok x) /\
         validate f e true wide x dend = Ret (verdict r)).
Proof.
  intros Hok.
  apply (chk_cslot_ind (e_data e)
    (fun p lim r => forall f w len dend, p + 1 < Z.of_nat f -> lim <= p + len -> lim <= dend ->
       validate f e false w (V p len) dend = Ret (verdict r))
    (fun wide b q r => b <= q -> forall f dend, 0 <= b < Z.of_nat f ->
       exists x, from_raw e q (width_of wide) = Ret (Ok x) /\
         validate f e true wide x dend = Ret (verdict r))).
  - intros t bs p Hr Hh Hp f w len dend Hf Hl Hd. destruct f; [apply holds_bounds in Hh; lia|].
    eapply validate_scalar; eauto; lia.
  - intros is_dict m wide p n q Hm Hn Hq Hp Hh Hlim Hsl IH f w len dend Hf Hl Hd. subst q.
    pose proof (holds_bounds _ _ _ Hh) as [Hp0 _]. pose proof (width_bounds wide) as [Hw _]. pose proof (hdr_size_2 m).
    destruct f; [lia|]. assert (0 <= n) by (subst n; destruct is_dict; lia). subst n.
    assert (Hc : coll_at e (V p len) (if is_dict then TyDict else TyArray) (if is_dict then 2 * m else m) wide (p + hdr_size m))
      by (apply hdr_coll_at; auto; nia).
    eapply validate_coll; eauto; [destruct is_dict; auto|]. intros j Hj. apply (IH j Hj); [nia|lia].
  - intros is_dict m wide p n q i Hm Hn Hq Hp Hh Hlim Hi Hsl IH Hb IHb f w len dend Hf Hl Hd. subst q.
    pose proof (holds_bounds _ _ _ Hh) as [Hp0 _]. pose proof (width_bounds wide) as [Hw _]. pose proof (hdr_size_2 m).
    destruct f; [lia|]. subst n.
    assert (Hc : coll_at e (V p len) (if is_dict then TyDict else TyArray) (if is_dict then 2 * m else m) wide (p + hdr_size m))
      by (apply hdr_coll_at; auto; nia).
    apply (validate_coll_bad e f false w (V p len) _ _ wide _ dend i Hok Hc); [destruct is_dict; auto|lia|lia| |].
    + intros j Hj. apply (IH j Hj); [nia|lia].
    + apply IHb; [nia|lia].
  - intros wide b q t b0 b1 Hr Hh Hb f dend Hf. destruct f; [lia|].
    exists (V q (width_of wide)). eapply inline_slot_ok; eauto.
  - intros wide b q off lim r Ho He Hlt Hh Hc IH Hlim Hb f dend Hf. destruct f; [lia|].
    pose proof (chk_bounds _ _ _ _ Hc).
    exists (V q (width_of wide)). apply (validate_ptr_any e f true wide q off); auto; try lia.
    + eapply chk_nonptr; eauto. lia.
    + apply IH; lia.
  - intros b q Hh Hb f dend Hf. destruct f; [lia|]. exists (V q 2).
    assert (Hty : value_type e (V q 2) = Ret TyPointer) by (rewrite (holds_type _ _ _ _ _ Hh) by lia; reflexivity).
    split.
    + cbn [width_of]. apply (from_raw_ok e q 2 2); [lia| |lia]. unfold required_size. rewrite Hty; reflexivity.
    + cbn [validate]. rewrite Hty; cbn [bind]. destruct (fuel_of_S e) as [g ->]. cbn [deref_checked v_len andb orb].
      change (2 <? 2) with false. cbv iota. unfold get_offset; cbn [v_pos].
      assert (Er : raw_bytes e q 2 = Ret [128; 0]) by (apply (holds_raw_bytes e q [128; 0] 2 Hh eq_refl)).
      rewrite Er. reflexivity.
Qed.
Lemma chk_validate e p lim r f w len dend :
  env_ok e -> chk (e_data e) p lim r -> p + 1 < Z.of_nat f -> lim <= p + len -> lim <= dend ->
  validate f e false w (V p len) dend = Ret (verdict r).
Proof. intros Hok Hc. apply (proj1 (chk_validate_aux e Hok)). exact Hc. Qed.

(* ---------- slot values on the encoder's stack ---------- *)

Inductive wval (D : list Z) : sized -> bool -> Prop :=
| wv_inline t b0 b1 : repr t [b0; b1] -> wval D [b0; b1; 0; 0] true
| wv_ptr off lim r : chk D off lim r -> off <= MAX_WIDE -> wval D (mkptr off) r.
Definition known (D : list Z) (s : sized) : Prop := exists r, wval D s r.

Lemma wval_mono D X s r : wval D s r -> wval (D ++ X) s r.
Proof. intros H. destruct H; [eapply wv_inline; eauto|eapply wv_ptr; eauto using chk_mono]. Qed.
Lemma known_mono D X s : known D s -> known (D ++ X) s.
Proof. intros [r H]. exists r. apply wval_mono. exact H. Qed.

(** The slots of a collection that is still open; a key without its value comes last. *)
Definition vslots (c : coll) : list sized := match c with CArr vs => vs | CDict vs _ => dict_slots vs end.
Definition pslot (c : coll) : list sized := match c with CDict _ (Some k) => [dk_sized k] | _ => [] end.
Definition cknown (D : list Z) (c : coll) : Prop := Forall (known D) (vslots c ++ pslot c).
Definition cbad (D : list Z) (c : coll) : Prop := Exists (fun s => wval D s false) (vslots c).
Lemma cknown_mono D X c : cknown D c -> cknown (D ++ X) c.
Proof. apply Forall_impl. intros s. apply known_mono. Qed.
Lemma cbad_mono D X c : cbad D c -> cbad (D ++ X) c.
Proof. apply Exists_impl. intros s. apply wval_mono. Qed.

(* ---------- writing the slots ---------- *)

Lemma straddle_bytes off : MAX_NARROW < off < 131072 -> exists r, ptr_bytes true off = [128; 0] ++ r /\ lenZ r = 2.
Proof.
  intros H. unfold ptr_bytes, MAX_NARROW in *. rewrite be4 by lia.
  exists [(off / 2 + 2147483648) / 256 mod 256; (off / 2 + 2147483648) mod 256]. split; [|reflexivity].
  cbn [app]. f_equal; [lia|]. f_equal. lia.
Qed.

(** One slot: either it fits, or its first two bytes are those of a pointer to nowhere. *)
Lemma slot_written c e wide s n q e' o :
  out_even e -> q = lenZ (en_out e) -> n <= q -> q < 131072 -> sgood n s -> sclean 0 s ->
  enc_write c e (ESized (fix1 q s)) wide false = Ret (e', o) ->
  exists B, e' = set_out e (en_out e ++ B) /\ lenZ B mod 2 = 0 /\ width_of wide <= lenZ B /\
    (if slot_fits wide q s then B = slot_bytes wide (fix1 q s) /\ lenZ B = width_of wide
     else wide = false /\ exists r, B = [128; 0] ++ r).
Proof.
  intros He Hq Hn Hm [Hs Hb] Hc Hw. destruct (slot_fits wide q s) eqn:Ef.
  - destruct (enc_write_slot c e wide s q) as [E1 E2]; auto.
    + unfold MAX_WIDE; lia.
    + eapply swf_mono; eauto.
    + destruct Hs as [(b0 & b1 & -> & _)|(off & -> & Ho & _)]; unfold sbyte.
      * inversion Hb; assumption.
      * rewrite mkptr_bytes by exact Ho. cbn [nth]. unfold is_byte, MAX_WIDE in *. lia.
    + rewrite E1 in Hw. apply Ret_inj in Hw. apply (f_equal fst) in Hw. cbn [fst] in Hw. subst e'.
      exists (slot_bytes wide (fix1 q s)). split; [reflexivity|]. split; [rewrite E2; destruct wide; reflexivity|]. split; [lia|auto].
  - unfold slot_fits in Ef. destruct wide; [discriminate|]. cbn [orb] in Ef. unfold sclean in Hc.
    destruct Hs as [(b0 & b1 & -> & Hsc)|(off & -> & Ho & He2 & Hlt)].
    { rewrite scalar_not_ptr in * by exact Hsc. lia. }
    rewrite is_ptr_mkptr, pointer_offset_mkptr in Ef by exact Ho. unfold fix1 in Hw. rewrite is_ptr_mkptr, pointer_offset_mkptr in Hw by exact Ho.
    assert (Ho2 : MAX_NARROW < q - off < 131072) by lia. set (o2 := q - off) in *.
    assert (Ho3 : 0 <= o2 <= MAX_WIDE) by (unfold MAX_WIDE, MAX_NARROW in *; lia).
    assert (Hgo : write_to (c_dbg c) (ESized (mkptr o2)) (sized_fleece_size (mkptr o2)) false = Ret (Some (ptr_bytes true o2)) /\ sized_fleece_size (mkptr o2) = 4).
    { pose proof (is_ptr_mkptr o2 Ho3) as Hp. unfold is_ptr in Hp. apply vtype_eqb_eq in Hp.
      cbn [write_to]. unfold write_sized, sized_fleece_size. rewrite Hp, pointer_offset_mkptr by exact Ho3. unfold MAX_NARROW, MAX_WIDE in *.
      destruct (16383 <? o2) eqn:E; [|lia]. cbn [orb Z.ltb Z.compare Pos.compare Pos.compare_cont]. split; [|reflexivity].
      rewrite be4 by lia. unfold TAG_POINTER, ptr_bytes. rewrite lor128 by lia. rewrite be4 by lia.
      apply f_equal, f_equal. repeat (apply f_equal2; [lia|]). reflexivity. }
    destruct Hgo as [Hg Hsz]. unfold enc_write in Hw. cbn [fleece_size andb] in Hw. rewrite Hg in Hw. cbn [bind] in Hw.
    destruct (straddle_bytes o2 Ho2) as (r & Er & Hr).
    assert (Hl : lenZ (ptr_bytes true o2) = 4) by (rewrite ptr_bytes_len; reflexivity).
    rewrite Hl, Hsz, Z.eqb_refl in Hw. rewrite pad_even_app in Hw by exact He. rewrite pad_even_even in Hw by (rewrite Hl; reflexivity).
    apply Ret_inj in Hw. apply (f_equal fst) in Hw. cbn [fst] in Hw. subst e'. exists (ptr_bytes true o2).
    split; [reflexivity|]. rewrite Hl. split; [reflexivity|]. split; [cbn; lia|]. split; [reflexivity|]. eauto.
Qed.

Lemma slots_grow c w : forall vs e e', write_slots c e w vs = Ret e' -> out_even e ->
  exists B, e' = set_out e (en_out e ++ B) /\ 2 * lenZ vs <= lenZ B.
Proof.
  induction vs as [|s vs IH]; intros e e' H He; cbn [write_slots] in H.
  - apply Ret_inj in H. subst e'. exists []. rewrite app_nil_r. split; [destruct e; reflexivity|cbn; lia].
  - destruct (enc_write c e (ESized s) w false) as [[e1 o]| | |] eqn:E; try discriminate. cbn [bind fst] in H.
    pose proof (slot_len _ _ _ _ _ _ E He) as (_ & Ge & _).
    unfold enc_write in E. cbn [fleece_size] in E. rewrite andb_true_r in E.
    destruct (write_to _ _ _ _) as [[bs|]| | |]; try discriminate. cbn [bind] in E.
    destruct (lenZ bs =? _) eqn:El; [|discriminate]. apply Ret_inj in E. apply (f_equal fst) in E. cbn [fst] in E. subst e1.
    assert (Hs : sized_fleece_size s = 2 \/ sized_fleece_size s = 4) by (unfold sized_fleece_size; destruct (sized_type s); auto; destruct (_ <? _); auto).
    assert (2 <= lenZ bs) by (destruct w; lia).
    destruct (IH _ _ H Ge) as (B & -> & Hl). rewrite pad_even_app by exact He. exists (pad_even bs ++ B).
    split; [rewrite set_out_set_out; cbn [set_out en_out]; rewrite app_assoc; reflexivity|].
    rewrite lenZ_app, pad_even_len, lenZ_cons. lia.
Qed.
Lemma fixed_length w : forall vs q, lenZ (fixed w q vs) = lenZ vs.
Proof. induction vs as [|s vs IH]; intros q; cbn [fixed]; [reflexivity|]. rewrite !lenZ_cons, IH. reflexivity. Qed.

(** What slot [i] holds after all have been written, if the slots before it fit. *)
Lemma slots_written c wide n : forall vs e q e',
  out_even e -> q = lenZ (en_out e) -> n <= q -> q + 4 * lenZ vs < 131072 -> Forall (sgood n) vs -> Forall (sclean 0) vs ->
  write_slots c e wide (fixed (width_of wide) q vs) = Ret e' ->
  exists B, e' = set_out e (en_out e ++ B) /\ lenZ vs * width_of wide <= lenZ B /\
    forall i s, nthZ vs i = Some s ->
      (forall j s', 0 <= j < i -> nthZ vs j = Some s' -> slot_fits wide (q + j * width_of wide) s' = true) ->
      holds B (i * width_of wide)
        (if slot_fits wide (q + i * width_of wide) s then slot_bytes wide (fix1 (q + i * width_of wide) s) else [128; 0]) /\
      (wide = true -> slot_fits wide (q + i * width_of wide) s = true).
Proof.
  assert (Hw2 : 2 <= width_of wide <= 4) by (destruct wide; cbn; lia).
  induction vs as [|s vs IH]; intros e q e' He Hq Hn Hm Hs Hc Hw; cbn [fixed write_slots] in Hw.
  - apply Ret_inj in Hw. subst e'. exists []. rewrite app_nil_r. split; [destruct e; reflexivity|]. split; [cbn; lia|].
    intros i s Hi. apply nthZ_Some in Hi. cbn in Hi. lia.
  - inversion Hs as [|? ? Hs1 Hs2]; subst. inversion Hc as [|? ? Hc1 Hc2]; subst. rewrite lenZ_cons in *. pose proof (lenZ_nonneg vs).
    set (q := lenZ (en_out e)) in *.
    destruct (enc_write c e (ESized (fix1 q s)) wide false) as [[e1 o]| | |] eqn:E; try discriminate. cbn [bind fst] in Hw.
    destruct (slot_written c e wide s n q e1 o He eq_refl Hn ltac:(lia) Hs1 Hc1 E) as (B1 & -> & Hb1 & Hb2 & Hfit).
    destruct (slot_fits wide q s) eqn:Ef.
    + destruct Hfit as [HB Hl]. 
      destruct (IH (set_out e (en_out e ++ B1)) (q + width_of wide) e') as (B2 & -> & Hl2 & Hget); auto.
      { unfold out_even in *. cbn [set_out en_out]. rewrite lenZ_app, Hl. destruct wide; cbn [width_of]; lia. }
      { cbn [set_out en_out]. rewrite lenZ_app, Hl. reflexivity. }
      { lia. } { lia. }
      exists (B1 ++ B2). split; [rewrite set_out_set_out; cbn [set_out en_out]; rewrite app_assoc; reflexivity|].
      split; [rewrite lenZ_app; lia|]. intros i x Hi Hj. apply nthZ_Some in Hi as Hib. rewrite lenZ_cons in Hib.
      destruct (Z.eq_dec i 0) as [->|Hne].
      * rewrite nthZ_cons_0 in Hi. injection Hi as <-. replace (q + 0 * width_of wide) with q by lia. rewrite Ef.
        split; [|intros _; reflexivity]. subst B1. exists [], B2. split; [reflexivity|reflexivity].
      * rewrite nthZ_cons_S in Hi by lia. destruct (Hget (i - 1) x Hi) as [H1 H2].
        { intros j s' Hjj Hs'. replace (q + width_of wide + j * width_of wide) with (q + (j + 1) * width_of wide) by lia.
          apply Hj; [lia|]. rewrite nthZ_cons_S by lia. replace (j + 1 - 1) with j by lia. exact Hs'. }
        replace (q + width_of wide + (i - 1) * width_of wide) with (q + i * width_of wide) in * by lia. split; [|exact H2].
        destruct H1 as (a & b & E1 & E2). exists (B1 ++ a), b. rewrite E1, <- app_assoc. split; [reflexivity|]. rewrite lenZ_app. lia.
    + destruct Hfit as [-> (r & HB)].
      destruct (slots_grow c false _ _ _ Hw) as (B2 & -> & Hl2).
      { unfold out_even in *. cbn [set_out en_out]. rewrite lenZ_app. lia. }
      rewrite fixed_length in Hl2. exists (B1 ++ B2). split; [rewrite set_out_set_out; cbn [set_out en_out]; rewrite app_assoc; reflexivity|].
      cbn [width_of] in *. split; [rewrite lenZ_app; lia|]. intros i x Hi Hj. apply nthZ_Some in Hi as Hib.
      destruct (Z.eq_dec i 0) as [->|Hne].
      * rewrite nthZ_cons_0 in Hi. injection Hi as <-. replace (q + 0 * 2) with q by lia. rewrite Ef. split; [|discriminate].
        subst B1. rewrite <- app_assoc. exists [], (r ++ B2). split; [reflexivity|reflexivity].
      * exfalso. specialize (Hj 0 s ltac:(lia) (nthZ_cons_0 s vs)). replace (q + 0 * 2) with q in Hj by lia. congruence.
Qed.

(* ---------- the collection that has been laid out ---------- *)

Lemma wval_slot D X wide s r q :
  wval D s r -> lenZ D <= q -> q mod 2 = 0 -> q <= MAX_WIDE -> slot_fits wide q s = true ->
  holds (D ++ X) q (slot_bytes wide (fix1 q s)) -> cslot (D ++ X) wide (lenZ D) q r.
Proof.
  intros H Hq Hqe Hqm Hf Hh. destruct H as [t b0 b1 Hr|off lim r Hs Hm].
  - pose proof (repr_scalar_byte _ _ _ Hr) as Hsc.
    unfold fix1 in Hh. rewrite scalar_not_ptr in Hh by exact Hsc.
    destruct (inline_slot_bytes wide b0 b1 Hsc) as [r E]. rewrite E in Hh.
    eapply cs_inline; [exact Hr|]. eapply holds_app_l; exact Hh.
  - pose proof (chk_bounds _ _ _ _ Hs) as (Hb1 & Hb2 & Hl & He).
    assert (Ho : 0 <= off <= MAX_WIDE) by lia.
    unfold fix1 in Hh. rewrite is_ptr_mkptr, pointer_offset_mkptr in Hh by exact Ho.
    unfold slot_fits in Hf. rewrite is_ptr_mkptr, pointer_offset_mkptr in Hf by exact Ho.
    unfold slot_bytes in Hh.
    rewrite is_ptr_mkptr, pointer_offset_mkptr in Hh by lia.
    apply (cs_ptr _ wide (lenZ D) q (q - off) lim r); try lia.
    + unfold ptr_limit, MAX_WIDE, MAX_NARROW in *. destruct wide; cbn [orb] in Hf; lia.
    + exact Hh.
    + replace (q - (q - off)) with off by lia. apply chk_mono. exact Hs.
Qed.

(** The first slot that is damaged or leads to damage. *)
Definition first_bad (D : list Z) (wide : bool) (q : Z) (ss : list sized) : Prop :=
  exists i s, nthZ ss i = Some s /\
    (forall j s', 0 <= j < i -> nthZ ss j = Some s' -> slot_fits wide (q + j * width_of wide) s' = true /\ wval D s' true) /\
    (slot_fits wide (q + i * width_of wide) s = false \/ (slot_fits wide (q + i * width_of wide) s = true /\ wval D s false)).
Definition all_good (D : list Z) (wide : bool) (q : Z) (ss : list sized) : Prop :=
  forall j s', nthZ ss j = Some s' -> slot_fits wide (q + j * width_of wide) s' = true /\ wval D s' true.

Lemma first_bad_head D wide q s ss :
  slot_fits wide q s = false \/ (slot_fits wide q s = true /\ wval D s false) -> first_bad D wide q (s :: ss).
Proof.
  intros H. exists 0, s. split; [apply nthZ_cons_0|]. split; [intros; lia|]. replace (q + 0 * width_of wide) with q by lia. exact H.
Qed.
Lemma first_bad_cons D wide q s ss : slot_fits wide q s = true -> wval D s true ->
  first_bad D wide (q + width_of wide) ss -> first_bad D wide q (s :: ss).
Proof.
  intros Hf Hw (i & x & Hi & Hj & Hb). pose proof (nthZ_Some _ _ _ Hi) as Hib. exists (i + 1), x.
  split; [rewrite nthZ_cons_S by lia; replace (i + 1 - 1) with i by lia; exact Hi|].
  replace (q + (i + 1) * width_of wide) with (q + width_of wide + i * width_of wide) by lia. split; [|exact Hb].
  intros j s' Hjj Hs'. destruct (Z.eq_dec j 0) as [->|Hne].
  - rewrite nthZ_cons_0 in Hs'. injection Hs' as <-. replace (q + 0 * width_of wide) with q by lia. auto.
  - rewrite nthZ_cons_S in Hs' by lia. replace (q + j * width_of wide) with (q + width_of wide + (j - 1) * width_of wide) by lia.
    apply Hj; [lia|exact Hs'].
Qed.
Lemma all_good_cons D wide q s ss : slot_fits wide q s = true -> wval D s true ->
  all_good D wide (q + width_of wide) ss -> all_good D wide q (s :: ss).
Proof.
  intros Hf Hw Hj j s' Hs'. pose proof (nthZ_Some _ _ _ Hs') as Hib. destruct (Z.eq_dec j 0) as [->|Hne].
  - rewrite nthZ_cons_0 in Hs'. injection Hs' as <-. replace (q + 0 * width_of wide) with q by lia. auto.
  - rewrite nthZ_cons_S in Hs' by lia. replace (q + j * width_of wide) with (q + width_of wide + (j - 1) * width_of wide) by lia.
    apply Hj. exact Hs'.
Qed.
Lemma good_or_bad D wide : forall ss q, Forall (known D) ss -> all_good D wide q ss \/ first_bad D wide q ss.
Proof.
  induction ss as [|s ss IH]; intros q H.
  - left. intros j s' Hs'. apply nthZ_Some in Hs'. cbn in Hs'. lia.
  - inversion H as [|? ? [r Hr] H2]; subst. destruct (slot_fits wide q s) eqn:Ef; [|right; apply first_bad_head; auto].
    destruct r; [|right; apply first_bad_head; auto].
    destruct (IH (q + width_of wide) H2); [left; apply all_good_cons; auto|right; apply first_bad_cons; auto].
Qed.
Lemma bad_found D wide : forall ss q, Forall (known D) ss ->
  arr_fits wide q ss = false \/ Exists (fun s => wval D s false) ss -> first_bad D wide q ss.
Proof.
  induction ss as [|s ss IH]; intros q H Hb.
  - destruct Hb as [Hb|Hb]; [discriminate|inversion Hb].
  - inversion H as [|? ? [r Hr] H2]; subst. destruct (slot_fits wide q s) eqn:Ef; [|apply first_bad_head; auto].
    destruct r; [|apply first_bad_head; auto].
    destruct Hb as [Hb|Hb].
    + cbn [arr_fits] in Hb. rewrite Ef in Hb. apply first_bad_cons; auto.
    + inversion Hb as [? ? Hx|? ? Hx]; subst; [apply first_bad_head; auto|]. apply first_bad_cons; auto.
Qed.

Lemma laid_out D H B (is_dict : bool) m wide ss pad :
  lenZ D mod 2 = 0 -> 0 <= m -> lenZ ss = (if is_dict then 2 * m else m) ->
  H = hdr_bytes (if is_dict then 112 else 96) m wide ++ pad -> lenZ H = hdr_size m -> hdr_size m mod 2 = 0 ->
  Forall (known D) ss -> lenZ D + hdr_size m + 4 * lenZ ss <= MAX_WIDE -> lenZ ss * width_of wide <= lenZ B ->
  let q := lenZ D + hdr_size m in
  (forall i s, nthZ ss i = Some s ->
      (forall j s', 0 <= j < i -> nthZ ss j = Some s' -> slot_fits wide (q + j * width_of wide) s' = true) ->
      holds B (i * width_of wide)
        (if slot_fits wide (q + i * width_of wide) s then slot_bytes wide (fix1 (q + i * width_of wide) s) else [128; 0]) /\
      (wide = true -> slot_fits wide (q + i * width_of wide) s = true)) ->
  let D' := D ++ H ++ B in
  let lim := q + lenZ ss * width_of wide in
  (exists r, chk D' (lenZ D) lim r) /\ lim <= lenZ D' /\
  (arr_fits wide q ss = false \/ Exists (fun s => wval D s false) ss -> chk D' (lenZ D) lim false).
Proof.
  intros Hev Hm Hl HH HlH Hhe Hk Hmx HlB q Hget D' lim.
  pose proof (width_bounds wide) as [Hw Hwe]. pose proof (lenZ_nonneg D). pose proof (lenZ_nonneg ss). pose proof (hdr_size_2 m).
  assert (Hlim : lim <= lenZ D') by (unfold lim, D', q; rewrite !lenZ_app; lia).
  assert (Hhdr : holds D' (lenZ D) (hdr_bytes (if is_dict then 112 else 96) m wide)).
  { unfold D'. rewrite HH. exists D, (pad ++ B). rewrite <- !app_assoc. split; reflexivity. }
  assert (Hslot : forall i s r, nthZ ss i = Some s -> slot_fits wide (q + i * width_of wide) s = true -> wval D s r ->
     (forall j s', 0 <= j < i -> nthZ ss j = Some s' -> slot_fits wide (q + j * width_of wide) s' = true) ->
     cslot D' wide (lenZ D) (q + i * width_of wide) r).
  { intros i s r Hi Hf Hwv Hj. pose proof (nthZ_Some _ _ _ Hi) as Hib. destruct (Hget i s Hi Hj) as [Hh _]. rewrite Hf in Hh.
    apply (wval_slot D (H ++ B) wide s r); auto; try (unfold q; nia); try (unfold q; destruct wide; cbn [width_of]; lia).
    replace (q + i * width_of wide) with (lenZ D + lenZ H + i * width_of wide) at 1 by (unfold q; lia).
    apply holds_hdr_slots. exact Hh. }
  assert (Hbad : first_bad D wide q ss -> chk D' (lenZ D) lim false).
  { intros (i & s & Hi & Hj & Hb). pose proof (nthZ_Some _ _ _ Hi) as Hib.
    assert (Hj1 : forall j s', 0 <= j < i -> nthZ ss j = Some s' -> slot_fits wide (q + j * width_of wide) s' = true) by (intros; eapply Hj; eauto).
    unfold lim. apply (ck_bad D' is_dict m wide (lenZ D) (lenZ ss) q i); auto; try lia.
    - intros j Hjj. destruct (nthZ_in ss j ltac:(lia)) as [s' Hs']. apply (Hslot j s'); auto.
      + eapply Hj; eauto.
      + intros k s2 Hk2. apply Hj1. lia.
    - destruct Hb as [Hb|[Hf Hwv]]; [|eapply Hslot; eauto].
      destruct (Hget i s Hi Hj1) as [Hh Hwd]. rewrite Hb in *. destruct wide; [specialize (Hwd eq_refl); discriminate|].
      apply cs_zero. replace (q + i * width_of false) with (lenZ D + lenZ H + i * width_of false) by (unfold q; lia).
      apply holds_hdr_slots. exact Hh. }
  split; [|split; [exact Hlim|intros Hb; apply Hbad, bad_found; assumption]].
  destruct (good_or_bad D wide ss q Hk) as [Hg|Hb]; [exists true|exists false; auto].
  unfold lim. apply (ck_good D' is_dict m wide (lenZ D) (lenZ ss) q); auto.
  intros j Hjj. destruct (nthZ_in ss j Hjj) as [s' Hs']. apply (Hslot j s'); auto; try (eapply Hg; eauto).
  intros k s2 _ Hk2. eapply Hg; eauto.
Qed.

(* ---------- the state of the encoder ---------- *)

Record V (e : enc) : Prop := mk_V {
  v_tame : tame e;
  v_clean : clean 0 e;
  v_known : Forall (cknown (en_out e)) (en_stack e);
}.
Definition bad_root (e : enc) : Prop :=
  en_stack e = [] /\ en_closed e = true /\ exists D0 p lim, en_out e = D0 ++ root_tail (lenZ D0 - p) /\ chk D0 p lim false /\
    lenZ D0 mod 2 = 0 /\ lenZ D0 - p <= MAX_WIDE.
Definition vbad (e : enc) : Prop := Exists (cbad (en_out e)) (en_stack e) \/ bad_root e.

Lemma stack_known_mono D X st : Forall (cknown D) st -> Forall (cknown (D ++ X)) st.
Proof. apply Forall_impl. intros c. apply cknown_mono. Qed.
Lemma stack_bad_mono D X st : Exists (cbad D) st -> Exists (cbad (D ++ X)) st.
Proof. apply Exists_impl. intros c. apply cbad_mono. Qed.

Lemma finished_known c e p lim e' r :
  finished_collection c e p = Ret (e', r) -> tame e -> lenZ (en_out e) <= MAX_WIDE ->
  (exists rr, chk (en_out e) p lim rr) -> Forall (cknown (en_out e)) (en_stack e) -> Forall pend_ok (en_stack e) ->
  Forall (cknown (en_out e')) (en_stack e') /\
  (chk (en_out e) p lim false \/ Exists (cbad (en_out e)) (en_stack e) -> vbad e').
Proof.
  intros H Ht Hm [rr Hc] Hk Hp. pose proof (chk_bounds _ _ _ _ Hc) as (Hp0 & Hp1 & Hl & Hpe).
  destruct (en_stack e) as [|top st] eqn:Est.
  - destruct (finished_total c e p Ht ltac:(lia) Hpe Hm) as (e2 & E2 & _ & Hr). rewrite H in E2. apply Ret_inj in E2.
    apply (f_equal fst) in E2. cbn [fst] in E2. subst e2. destruct (Hr Est) as (R1 & R2 & R3). rewrite R2. split; [constructor|].
    intros [Hb|Hb]; [|inversion Hb]. right. split; [exact R2|]. split; [exact R3|]. exists (en_out e), p, lim. split; [exact R1|]. split; [exact Hb|].
    split; [apply Ht|lia].
  - unfold finished_collection in H. rewrite Est in H. rewrite new_pointer_ok in H by lia.
    inversion Hk as [|? ? Hk1 Hk2]; subst. inversion Hp as [|? ? Hp1' Hp2]; subst.
    destruct top as [vs|vs [k|]]; [| |contradiction]; apply Ret_inj in H; apply (f_equal fst) in H; cbn [fst] in H; subst e';
      unfold vbad; cbn [set_stack en_out en_stack].
    + split.
      * constructor; [|exact Hk2]. unfold cknown in *. cbn [vslots pslot] in *. rewrite app_nil_r in *. apply Forall_app. split; [exact Hk1|].
        constructor; [exists rr; eapply wv_ptr; eauto; lia|constructor].
      * intros [Hb|Hb]; left.
        -- apply Exists_cons_hd. unfold cbad. cbn [vslots]. apply Exists_app. right. apply Exists_cons_hd. eapply wv_ptr; eauto; lia.
        -- inversion Hb as [? ? Hx|? ? Hx]; subst; [apply Exists_cons_hd|apply Exists_cons_tl; exact Hx].
           unfold cbad in *. cbn [vslots] in *. apply Exists_app. left. exact Hx.
    + split.
      * constructor; [|exact Hk2]. unfold cknown in *. cbn [vslots pslot] in *. rewrite app_nil_r. rewrite dict_slots_app. cbn [dict_slots de_key de_val].
        apply Forall_app in Hk1 as [K1 K2]. inversion K2; subst. apply Forall_app. split; [exact K1|].
        constructor; [assumption|]. constructor; [exists rr; eapply wv_ptr; eauto; lia|constructor].
      * intros [Hb|Hb]; left.
        -- apply Exists_cons_hd. unfold cbad. cbn [vslots]. rewrite dict_slots_app. apply Exists_app. right. cbn [dict_slots de_key de_val].
           apply Exists_cons_tl, Exists_cons_hd. eapply wv_ptr; eauto; lia.
        -- inversion Hb as [? ? Hx|? ? Hx]; subst; [apply Exists_cons_hd|apply Exists_cons_tl; exact Hx].
           unfold cbad in *. cbn [vslots] in *. rewrite dict_slots_app. apply Exists_app. left. exact Hx.
Qed.

Lemma perm_dict_slots vs ws : Permutation vs ws -> Permutation (dict_slots vs) (dict_slots ws).
Proof.
  induction 1 as [|d a b _ IH|d d2 a|a b c _ IH1 _ IH2]; cbn [dict_slots].
  - constructor.
  - repeat apply perm_skip. exact IH.
  - change (Permutation (([dk_sized (de_key d2); de_val d2] ++ [dk_sized (de_key d); de_val d]) ++ dict_slots a)
       (([dk_sized (de_key d); de_val d] ++ [dk_sized (de_key d2); de_val d2]) ++ dict_slots a)).
    apply Permutation_app_tail, Permutation_app_comm.
  - eapply perm_trans; eauto.
Qed.

Lemma close_array_V c e vs st e' r :
  end_array c e = Ret (e', r) -> V e -> en_stack e = CArr vs :: st -> Forall pend_ok st -> pot e < 131072 ->
  Forall (cknown (en_out e')) (en_stack e') /\
  (top_fits c e = false \/ Exists (cbad (en_out e)) (en_stack e) -> vbad e').
Proof.
  intros H [Ht Hcl Hkn] Est Hpd Hp. pose proof Ht as [H1 H2 H3]. unfold end_array, pot, top_fits in *. rewrite Est in *.
  cbn [stack_pop stack_pot coll_slots set_stack en_out] in *.
  inversion H3 as [|? ? K1 K2]; subst. inversion Hkn as [|? ? N1 N2]; subst. destruct Hcl as [Hcl _]. rewrite Est in Hcl. inversion Hcl as [|? ? C1 C2]; subst.
  pose proof (stack_pot_nonneg st). pose proof (lenZ_nonneg vs). pose proof (lenZ_nonneg (en_out e)).
  cbn [coll_tame cclean] in *. unfold cknown in N1. cbn [vslots pslot] in N1. rewrite app_nil_r in N1. set (n := lenZ (en_out e)) in *.
  assert (Hsw : Forall (swf n) vs) by (eapply Forall_impl; [|exact K1]; intros s [Hs _]; exact Hs).
  destruct (array_wide_total (c_dbg c) n vs) as [w Ew]; [unfold two32; lia|exact Hsw|]. rewrite Ew in *. cbn [bind] in H.
  assert (Ht0 : tame (set_stack e st)) by (constructor; assumption).
  destruct (enc_write_hdr c (set_stack e st) false (lenZ vs) w H1) as (pad & E1 & L1); [unfold two63; lia|].
  cbn [set_stack en_out] in E1. fold n in E1. rewrite E1 in H. cbn [bind] in H.
  set (HD := hdr_bytes 96 (lenZ vs) w ++ pad) in *.
  destruct (hdr_size_bounds (lenZ vs)) as [Hh1 Hh2]; [unfold two64; lia|].
  assert (Hw2 : 2 <= width_of w <= 4) by (destruct w; cbn; lia).
  cbn [set_out en_out] in H. set (q := lenZ (en_out e ++ HD)) in *. assert (Hq : q = n + hdr_size (lenZ vs)) by (unfold q; rewrite lenZ_app, L1; reflexivity).
  rewrite !wrap_u32_id in H by (unfold two32; lia).
  rewrite (fix_array_ok (c_dbg c) w n vs) in H by (try exact Hsw; unfold MAX_WIDE; nia). cbn [bind] in H.
  set (e1 := set_out (set_stack e st) (en_out e ++ HD)) in *.
  destruct (write_slots c e1 w (fixed (width_of w) q vs)) as [e2| | |] eqn:E2; try discriminate. cbn [bind] in H.
  assert (He1 : out_even e1) by (unfold out_even, e1 in *; cbn [set_out en_out]; fold q; fold n in H1; lia).
  assert (Ht2 : tame e2).
  { destruct (write_slots_total c w (fixed (width_of w) q vs) e1) as (e2' & E2' & A2); [apply (fixed_slots n); auto; unfold MAX_WIDE; nia|exact He1|].
    rewrite E2 in E2'. apply Ret_inj in E2'. subst e2'. eapply appended_tame; [|exact A2]. eapply appended_tame; [exact Ht0|].
    exists HD. split; [|split; [reflexivity|exact He1]].
    destruct (hdr_total c (set_stack e st) false (lenZ vs) w) as (e1' & E1' & (bs & Hbs & -> & _) & _); [exact H1|unfold two63; lia|].
    cbn [set_stack en_out] in E1'. fold n in E1'. rewrite E1 in E1'. apply Ret_inj in E1'. apply (f_equal (fun x => en_out (fst x))) in E1'. cbn [fst set_out en_out set_stack] in E1'.
    apply app_inv_head in E1'. rewrite E1'. exact Hbs. }
  pose proof (slots_len _ _ _ _ _ E2 He1) as (_ & _ & Ls). rewrite fixed_length in Ls. unfold e1 in Ls. cbn [set_out en_out] in Ls. fold q in Ls.
  destruct (slots_written c w n vs e1 q e2 He1 eq_refl ltac:(lia) ltac:(lia) K1 C1 E2) as (B & HB & HlB & Hget).
  destruct (laid_out (en_out e) HD B false (lenZ vs) w vs pad) as (Lk & Ll & Lb); auto.
  { fold n. unfold MAX_WIDE. lia. }
  { fold n. rewrite <- Hq. exact Hget. }
  fold n in Lk, Ll, Lb. rewrite <- Hq in Lk, Ll, Lb.
  assert (Ho : en_out e2 = en_out e ++ HD ++ B) by (subst e2; unfold e1; cbn [set_out en_out]; rewrite <- app_assoc; reflexivity).
  assert (Hs : en_stack e2 = st) by (subst e2; reflexivity).
  destruct (finished_known c e2 n (q + lenZ vs * width_of w) e' r H Ht2) as [F1 F2]; rewrite ?Ho, ?Hs; eauto.
  { rewrite <- Ho. unfold MAX_WIDE. lia. }
  { apply stack_known_mono. exact N2. }
  split; [exact F1|]. intros Hb. apply F2. rewrite Ho, Hs. rewrite <- Hq in Hb. destruct Hb as [Hb|Hb].
  - left. apply Lb. auto.
  - apply Exists_cons in Hb as [Hx|Hx]; [left; apply Lb; right; exact Hx|right; apply stack_bad_mono; exact Hx].
Qed.

Lemma close_dict_V c e vs st e' r :
  sort_ok (c_sort c) ->
  end_dict c e = Ret (e', r) -> V e -> en_stack e = CDict vs None :: st -> Forall pend_ok st -> pot e < 131072 ->
  Forall (cknown (en_out e')) (en_stack e') /\
  (top_fits c e = false \/ Exists (cbad (en_out e)) (en_stack e) -> vbad e').
Proof.
  intros Hso H [Ht Hcl Hkn] Est Hpd Hp. pose proof Ht as [H1 H2 H3]. unfold end_dict, pot, top_fits in *. rewrite Est in *.
  cbn [stack_pot coll_slots set_stack en_out] in *.
  inversion H3 as [|? ? K1 K2]; subst. inversion Hkn as [|? ? N1 N2]; subst. destruct Hcl as [Hcl _]. rewrite Est in Hcl. inversion Hcl as [|? ? C1 C2]; subst.
  pose proof (stack_pot_nonneg st). pose proof (lenZ_nonneg vs). pose proof (lenZ_nonneg (en_out e)).
  cbn [coll_tame cclean] in *. destruct K1 as [K1 _]. destruct C1 as [C1 _]. unfold cknown in N1. cbn [vslots pslot] in N1. rewrite app_nil_r in N1. set (n := lenZ (en_out e)) in *.
  assert (Hkg : forall l, Forall (dtame n) l -> Forall (fun d => kgood n (de_key d) /\ swf n (de_val d)) l).
  { intros l. apply Forall_impl. intros d [[Hk _] [Hv _]]. auto. }
  destruct (dict_wide_total (c_dbg c) n ltac:(unfold two32; lia) vs n) as [w Ew]; [lia|apply Hkg; exact K1|]. rewrite Ew in *. cbn [bind] in H.
  assert (Ht0 : tame (set_stack e st)) by (constructor; assumption).
  destruct (enc_write_hdr c (set_stack e st) true (lenZ vs) w H1) as (pad & E1 & L1); [unfold two63; lia|].
  cbn [set_stack en_out] in E1. fold n in E1. rewrite E1 in H. cbn [bind] in H.
  set (HD := hdr_bytes 112 (lenZ vs) w ++ pad) in *.
  destruct (hdr_size_bounds (lenZ vs)) as [Hh1 Hh2]; [unfold two64; lia|].
  assert (Hw2 : 2 <= width_of w <= 4) by (destruct w; cbn; lia).
  destruct (Hso vs) as [Hperm _]. pose proof (Permutation_lenZ _ _ Hperm) as Hpl. pose proof (perm_dict_slots _ _ Hperm) as Hps.
  assert (K1s : Forall (dtame n) (c_sort c vs)) by (eapply Permutation_Forall; eauto).
  assert (C1s : Forall (sclean 0) (dict_slots (c_sort c vs))) by (eapply Permutation_Forall; eauto).
  assert (N1s : Forall (known (en_out e)) (dict_slots (c_sort c vs))) by (eapply Permutation_Forall; eauto).
  set (ws := c_sort c vs) in *. pose proof (dict_slots_len ws) as Hdl.
  assert (G1s : Forall (sgood n) (dict_slots ws)).
  { clear - K1s Hp H H0 H4 H5. assert (Hn : n <= MAX_WIDE) by (unfold MAX_WIDE; lia). clear Hp H H0 H4 H5.
    induction K1s as [|d l [Hk Hv] _ IH]; cbn [dict_slots]; constructor; [apply ktame_sgood; assumption|]. constructor; assumption. }
  cbn [set_out en_out] in H. set (q := lenZ (en_out e ++ HD)) in *. assert (Hq : q = n + hdr_size (lenZ vs)) by (unfold q; rewrite lenZ_app, L1; reflexivity).
  rewrite !wrap_u32_id in H by (unfold two32; lia).
  rewrite (fix_dict_ok (c_dbg c) w n) in H by (try (apply Hkg; exact K1s); unfold MAX_WIDE; nia). cbn [bind] in H.
  set (e1 := set_out (set_stack e st) (en_out e ++ HD)) in *.
  assert (He1 : out_even e1) by (unfold out_even, e1 in *; cbn [set_out en_out]; fold q; fold n in H1; lia).
  destruct (write_slots_total c w (fixed (width_of w) q (dict_slots ws)) e1) as (e2 & E2 & A2); [apply (fixed_slots n); auto; unfold MAX_WIDE; nia|exact He1|].
  pose proof (write_entries_ok c w n ws e1 q e2 (Hkg _ K1s) ltac:(lia) ltac:(unfold MAX_WIDE; nia) E2) as E2'.
  unfold eseq in H. rewrite E2' in H. cbn [bind fst snd] in H.
  assert (Ht2 : tame e2).
  { eapply appended_tame; [|exact A2]. eapply appended_tame; [exact Ht0|].
    exists HD. split; [|split; [reflexivity|exact He1]].
    destruct (hdr_total c (set_stack e st) true (lenZ vs) w) as (e1' & E1' & (bs & Hbs & -> & _) & _); [exact H1|unfold two63; lia|].
    cbn [set_stack en_out] in E1'. fold n in E1'. rewrite E1 in E1'. apply Ret_inj in E1'. apply (f_equal (fun x => en_out (fst x))) in E1'. cbn [fst set_out en_out set_stack] in E1'.
    apply app_inv_head in E1'. rewrite E1'. exact Hbs. }
  pose proof (slots_len _ _ _ _ _ E2 He1) as (_ & _ & Ls). rewrite fixed_length in Ls. unfold e1 in Ls. cbn [set_out en_out] in Ls. fold q in Ls.
  destruct (slots_written c w n (dict_slots ws) e1 q e2 He1 eq_refl ltac:(lia) ltac:(lia) G1s C1s E2) as (B & HB & HlB & Hget).
  destruct (laid_out (en_out e) HD B true (lenZ vs) w (dict_slots ws) pad) as (Lk & Ll & Lb); auto.
  { lia. }
  { fold n. unfold MAX_WIDE. lia. }
  { fold n. rewrite <- Hq. exact Hget. }
  fold n in Lk, Ll, Lb. rewrite <- Hq in Lk, Ll, Lb.
  assert (Ho : en_out e2 = en_out e ++ HD ++ B) by (subst e2; unfold e1; cbn [set_out en_out]; rewrite <- app_assoc; reflexivity).
  assert (Hs : en_stack e2 = st) by (subst e2; reflexivity).
  destruct (finished_known c e2 n (q + lenZ (dict_slots ws) * width_of w) e' r H Ht2) as [F1 F2]; rewrite ?Ho, ?Hs; eauto.
  { rewrite <- Ho. unfold MAX_WIDE. lia. }
  { apply stack_known_mono. exact N2. }
  split; [exact F1|]. intros Hb. apply F2. rewrite Ho, Hs. rewrite <- Hq in Hb. destruct Hb as [Hb|Hb].
  - left. apply Lb. auto.
  - apply Exists_cons in Hb as [Hx|Hx]; [|right; apply stack_bad_mono; exact Hx].
    left. apply Lb. right. unfold cbad in Hx. cbn [vslots] in Hx. eapply Permutation_Exists; eauto.
Qed.

(* ---------- the calls ---------- *)

Lemma good_answered dbg o : good_op o -> answered_op dbg o.
Proof.
  destruct o as [k|v|n| | | |t]; cbn [good_op answered_op]; auto. intros [Hw Hok]. split; [exact Hw|].
  induction v as [t z|b|b|b| | |s0|s0| |w IH|s0|d n]; cbn [can_write]; auto.
  pose proof (fleece_size_pos _ Hw Hok) as Hs. cbn [wf_enc enc_ok fleece_size] in *.
  assert (Hl : (-2048 <=? z) && (z <=? 2047) = true -> (-2048 <=? wrap_i16 z) && (wrap_i16 z <=? 2047) = true).
  { intros Hz. rewrite wrap_i16_id by lia. exact Hz. }
  destruct t; auto; cbn [ity_min ity_max] in *.
  - destruct (z <=? 2047) eqn:E; [reflexivity|]. cbn [orb]. rewrite <- byte_count_zero by (unfold two63, two64 in *; lia).
    destruct (u64_fleece_size z - 1 =? 0) eqn:E2; [lia|]. destruct dbg; reflexivity.
  - destruct (z <=? 2047) eqn:E; [reflexivity|]. cbn [orb]. rewrite <- byte_count_zero by (unfold two63, two64 in *; lia).
    destruct (u64_fleece_size z - 1 =? 0) eqn:E2; [lia|]. destruct dbg; reflexivity.
Qed.

Lemma push_key_known e k :
  Forall (cknown (en_out e)) (en_stack e) -> known (en_out e) (dk_sized k) ->
  let e' := fst (push_key e k) in
  Forall (cknown (en_out e')) (en_stack e') /\ (Exists (cbad (en_out e)) (en_stack e) -> Exists (cbad (en_out e')) (en_stack e')).
Proof.
  intros H Hk. unfold push_key. destruct (en_stack e) as [|[vs|vs [k2|]] st] eqn:Est; cbn [fst]; try (rewrite Est; auto).
  cbn [set_stack en_out en_stack]. inversion H as [|? ? H1 H2]; subst. split.
  - constructor; [|exact H2]. unfold cknown in *. cbn [vslots pslot] in *. rewrite app_nil_r in H1. apply Forall_app. auto.
  - intros Hb. apply Exists_cons in Hb as [Hb|Hb]; [apply Exists_cons_hd; exact Hb|apply Exists_cons_tl; exact Hb].
Qed.
Lemma push_value_known e s :
  Forall (cknown (en_out e)) (en_stack e) -> known (en_out e) s ->
  let e' := fst (push_value e s) in
  Forall (cknown (en_out e')) (en_stack e') /\ (Exists (cbad (en_out e)) (en_stack e) -> Exists (cbad (en_out e')) (en_stack e')).
Proof.
  intros H Hk. unfold push_value. destruct (en_stack e) as [|[vs|vs [k2|]] st] eqn:Est; cbn [fst]; try (rewrite Est; auto);
    cbn [set_stack en_out en_stack]; inversion H as [|? ? H1 H2]; subst; split.
  - constructor; [|exact H2]. unfold cknown in *. cbn [vslots pslot] in *. rewrite app_nil_r in *. apply Forall_app. auto.
  - intros Hb. apply Exists_cons in Hb as [Hb|Hb]; [apply Exists_cons_hd|apply Exists_cons_tl; exact Hb].
    unfold cbad in *. cbn [vslots] in *. apply Exists_app. auto.
  - constructor; [|exact H2]. unfold cknown in *. cbn [vslots pslot] in *. apply Forall_app in H1 as [H1 H3]. inversion H3; subst.
    rewrite app_nil_r, dict_slots_app. apply Forall_app. split; [exact H1|]. cbn [dict_slots de_key de_val]. auto.
  - intros Hb. apply Exists_cons in Hb as [Hb|Hb]; [apply Exists_cons_hd|apply Exists_cons_tl; exact Hb].
    unfold cbad in *. cbn [vslots] in *. rewrite dict_slots_app. apply Exists_app. auto.
Qed.

Lemma key_pointer_known c e k e' r :
  write_key_pointer c e k = Ret (e', r) -> wf_enc (EStr k) -> to_sized_value (EStr k) = None -> out_even e ->
  lenZ (en_out e) <= MAX_WIDE -> Forall (cknown (en_out e)) (en_stack e) ->
  Forall (cknown (en_out e')) (en_stack e') /\ (Exists (cbad (en_out e)) (en_stack e) -> Exists (cbad (en_out e')) (en_stack e')).
Proof.
  intros H Hw Hn He Hm Hk. unfold write_key_pointer in H.
  destruct (enc_write_value c e (EStr k) Hw eq_refl Hn He Hm) as (bs & X & Ew & Hrp & Hh & HX & _).
  rewrite Ew in H. cbn [bind] in H. apply Ret_inj in H.
  pose proof (push_key_known (set_out e (en_out e ++ X)) (DKPointer k (lenZ (en_out e)))) as Hpk. rewrite H in Hpk. cbn [fst set_out en_out en_stack] in Hpk.
  destruct Hpk as [P1 P2]; [apply stack_known_mono; exact Hk| |].
  - cbn [dk_sized]. exists true. eapply wv_ptr; [|exact Hm]. eapply ck_scalar; eauto.
  - split; [exact P1|]. intros Hb. apply P2. apply stack_bad_mono. exact Hb.
Qed.

Lemma key_known c e k e' r :
  write_key c e k = Ret (e', r) -> wf_enc (EStr k) -> out_even e ->
  lenZ (en_out e) <= MAX_WIDE -> Forall (cknown (en_out e)) (en_stack e) ->
  Forall (cknown (en_out e')) (en_stack e') /\ (Exists (cbad (en_out e)) (en_stack e) -> Exists (cbad (en_out e')) (en_stack e')).
Proof.
  intros H Hw He Hm Hk. unfold write_key in H. destruct (to_sized_value (EStr k)) as [s|] eqn:Es.
  - apply Ret_inj in H. pose proof (push_key_known e (DKInline s) Hk) as Hpk. rewrite H in Hpk. cbn [fst] in Hpk. apply Hpk.
    destruct (sized_repr (EStr k) s Hw eq_refl Es) as (b0 & b1 & -> & Hr). exists true. eapply wv_inline; exact Hr.
  - unfold write_key_long in H. destruct (en_sk e) as [t|]; [|eapply key_pointer_known; eauto].
    destruct (en_stack e) as [|[vs|vs nk] st] eqn:Est;
      try (apply Ret_inj in H; apply (f_equal fst) in H; cbn [fst] in H; subst e'; rewrite Est; auto).
    destruct (encode_and_insert (c_ua c) t k) as [t' [i|]] eqn:Ei.
    + apply Ret_inj in H. pose proof (push_key_known (set_sk e (Some t')) (DKShared i)) as Hpk. rewrite H in Hpk. cbn [fst set_sk en_out en_stack] in Hpk.
      rewrite Est in Hpk. apply Hpk; [exact Hk|].
      unfold encode_and_insert, can_add, sk_len, MAX_KEYS in Ei.
      destruct (lenZ t <? 2048) eqn:E1; cbn [andb negb] in Ei; [|discriminate].
      destruct ((lenZ k <=? MAX_KEY_LEN) && can_encode (c_ua c) k); cbn [negb] in Ei; [|discriminate].
      pose proof (lenZ_nonneg t). assert (Hi : 0 <= i <= 2047).
      { destruct (sk_find (zstr_make k) 0 t) as [j|] eqn:Ef; injection Ei as <- <-; [|lia]. apply sk_find_bounds in Ef. lia. }
      cbn [dk_sized]. exists true. unfold new_narrow. apply (wv_inline _ (TInt i)). pose proof (repr_short i ltac:(lia)) as Hr.
      unfold short_bytes, wrap_u16, two16 in Hr. replace ((i mod 65536 / 256) mod 16) with (i / 256) in Hr by lia.
      replace ((i mod 65536) mod 256) with (i mod 256) in Hr by lia. exact Hr.
    + pose proof (key_pointer_known c (set_sk e (Some t')) k e' r H Hw Es) as Hpk. cbn [set_sk en_out en_stack] in Hpk. rewrite Est in Hpk. auto.
Qed.
Lemma value_known c e v e' r :
  write_value c e v = Ret (e', r) -> wf_enc v -> enc_ok v = true -> out_even e ->
  lenZ (en_out e) <= MAX_WIDE -> Forall (cknown (en_out e)) (en_stack e) ->
  Forall (cknown (en_out e')) (en_stack e') /\ (Exists (cbad (en_out e)) (en_stack e) -> Exists (cbad (en_out e')) (en_stack e')).
Proof.
  intros H Hw Hok He Hm Hk. unfold write_value in H. destruct (en_stack e) as [|cc st] eqn:Est.
  { apply Ret_inj in H; apply (f_equal fst) in H; cbn [fst] in H; subst e'. rewrite Est. auto. }
  destruct (to_sized_value v) as [s|] eqn:Es.
  - apply Ret_inj in H. pose proof (push_value_known e s) as Hpk. rewrite H, Est in Hpk. cbn [fst] in Hpk. apply Hpk; [exact Hk|].
    destruct (sized_repr v s Hw Hok Es) as (b0 & b1 & -> & Hr). exists true. eapply wv_inline; exact Hr.
  - destruct (enc_write_value c e v Hw Hok Es He Hm) as (bs & X & Ew & Hrp & Hh & HX & _).
    rewrite Ew in H. cbn [bind] in H. pose proof (lenZ_nonneg (en_out e)). rewrite new_pointer_ok in H by lia. apply Ret_inj in H.
    pose proof (push_value_known (set_out e (en_out e ++ X)) (mkptr (lenZ (en_out e)))) as Hpk. rewrite H in Hpk. cbn [fst set_out en_out en_stack] in Hpk.
    rewrite Est in Hpk. destruct Hpk as [P1 P2]; [apply stack_known_mono; exact Hk| |].
    + exists true. eapply wv_ptr; [|exact Hm]. eapply ck_scalar; eauto.
    + split; [exact P1|]. intros Hb. apply P2. apply stack_bad_mono. exact Hb.
Qed.

Lemma sh_pend e b c st : sh e b -> en_stack e = c :: st -> Forall pend_ok st.
Proof.
  intros Hs E. pose proof (sh_tl _ _ Hs) as Ht. rewrite E in Ht. cbn [tl] in Ht. clear - Ht.
  induction st as [|c st IH]; constructor; inversion Ht as [|? ? H1 H2]; subst; [|apply IH; exact H2].
  destruct c as [vs|vs [k|]]; cbn [pend_ok ckind] in *; auto.
Qed.

Lemma bad_root_same e e' : en_out e' = en_out e -> en_stack e' = en_stack e -> en_closed e' = en_closed e -> bad_root e -> bad_root e'.
Proof. unfold bad_root. intros -> -> ->. auto. Qed.

Lemma step_V c e b o e' r :
  sort_ok (c_sort c) -> enc_step c e o = Ret (e', r) -> V e -> sh e b -> good_op o -> plain_op o = true -> polite_op b o ->
  pot e + op_size o < 131072 -> V e' /\ (vbad e -> vbad e').
Proof.
  intros Hso H HV Hsh Hg Hpl Hpo Hp. pose proof HV as [Ht Hcl Hkn].
  assert (Hsz : 0 <= op_size o) by (apply good_op_size; exact Hg).
  assert (Hlen : lenZ (en_out e) <= MAX_WIDE) by (pose proof (stack_pot_nonneg (en_stack e)); unfold pot, MAX_WIDE in *; lia).
  assert (Ht' : tame e').
  { destruct (step_total c e o Hso Ht (good_answered _ _ Hg)) as (e2 & r2 & E & Ht2); [unfold MAX_WIDE; lia|]. congruence. }
  assert (Hcl' : clean 0 e').
  { eapply step_clean; eauto; [|lia]. destruct o; cbn [op_args_wf good_op] in *; tauto. }
  assert (Hgo : Forall (cknown (en_out e')) (en_stack e') /\
    (Exists (cbad (en_out e)) (en_stack e) -> vbad e') /\ (bad_root e -> bad_root e')).
  { destruct o as [k|v|n| | | |t]; cbn [enc_step good_op polite_op op_size] in *.
    - destruct (key_known c e k e' r H Hg (t_even _ Ht) Hlen Hkn) as [K1 K2]. split; [exact K1|]. split; [left; auto|].
      intros (_ & Hc & _). pose proof (sh_closed _ _ Hsh). rewrite Hpo in *. congruence.
    - destruct Hg as [Hw Hok]. destruct (value_known c e v e' r H Hw Hok (t_even _ Ht) Hlen Hkn) as [K1 K2]. split; [exact K1|]. split; [left; auto|].
      intros Hb. pose proof Hb as (Es & _). unfold write_value in H. rewrite Es in H. apply Ret_inj in H. congruence.
    - unfold begin_array in H. destruct (en_closed e) eqn:Ec; [|destruct (top_waits_for_key (en_stack e)); [|destruct (two63 <=? n * 4); [discriminate|]]];
        apply Ret_inj in H; apply (f_equal fst) in H; cbn [fst] in H; subst e'.
      + split; [exact Hkn|]. split; [left; assumption|auto].
      + split; [exact Hkn|]. split; [left; assumption|auto].
      + cbn [set_stack en_out en_stack]. split; [constructor; [constructor|exact Hkn]|]. split.
        * intros Hb. left. apply Exists_cons_tl. exact Hb.
        * intros (_ & Hc & _). congruence.
    - destruct (en_stack e) as [|[vs|vs [k|]] st] eqn:Est.
      + unfold end_array in H. rewrite Est in H. cbn [stack_pop] in H. apply Ret_inj in H; apply (f_equal fst) in H; cbn [fst] in H; subst e'.
        split; [constructor|]. split; [intros Hx; inversion Hx|]. apply bad_root_same; [reflexivity|symmetry; exact Est|reflexivity].
      + destruct (close_array_V c e vs st e' r H HV Est (sh_pend _ _ _ _ Hsh Est)) as [K1 K2]; [lia|]. split; [exact K1|]. split.
        * intros Hb. apply K2. right. rewrite Est. exact Hb.
        * intros (Hx & _). congruence.
      + unfold end_array in H. rewrite Est in H. cbn [stack_pop] in H. apply Ret_inj in H; apply (f_equal fst) in H; cbn [fst] in H; subst e'.
        split; [exact Hkn|]. split; [left; assumption|]. intros (Hx & _). congruence.
      + destruct (sh_cases _ _ Hsh) as [(E1 & E2)|[(?&?&?&?&E1&E2&_)|[(?&?&?&?&E1&E2&_)|(?&?&?&?&?&?&E1&E2&_)]]]; try congruence.
        rewrite E2 in Hpo. contradiction.
    - unfold begin_dict in H. destruct (en_closed e) eqn:Ec; [|destruct (top_waits_for_key (en_stack e))];
        apply Ret_inj in H; apply (f_equal fst) in H; cbn [fst] in H; subst e'.
      + split; [exact Hkn|]. split; [left; assumption|auto].
      + split; [exact Hkn|]. split; [left; assumption|auto].
      + cbn [set_stack en_out en_stack]. split; [constructor; [constructor|exact Hkn]|]. split.
        * intros Hb. left. apply Exists_cons_tl. exact Hb.
        * intros (_ & Hc & _). congruence.
    - destruct (en_stack e) as [|[vs|vs [k|]] st] eqn:Est.
      + unfold end_dict in H. rewrite Est in H. apply Ret_inj in H; apply (f_equal fst) in H; cbn [fst] in H; subst e'.
        split; [rewrite Est; constructor|]. split; [intros Hx; inversion Hx|auto].
      + unfold end_dict in H. rewrite Est in H. apply Ret_inj in H; apply (f_equal fst) in H; cbn [fst] in H; subst e'.
        split; [rewrite Est; exact Hkn|]. split; [rewrite <- Est; left; assumption|auto].
      + unfold end_dict in H. rewrite Est in H. apply Ret_inj in H; apply (f_equal fst) in H; cbn [fst] in H; subst e'.
        split; [rewrite Est; exact Hkn|]. split; [rewrite <- Est; left; assumption|auto].
      + destruct (close_dict_V c e vs st e' r Hso H HV Est (sh_pend _ _ _ _ Hsh Est)) as [K1 K2]; [lia|]. split; [exact K1|]. split.
        * intros Hb. apply K2. right. rewrite Est. exact Hb.
        * intros (Hx & _). congruence.
    - apply Ret_inj in H; apply (f_equal fst) in H; cbn [fst] in H; subst e'. unfold set_shared_keys. cbn [set_sk en_out en_stack].
      split; [exact Hkn|]. split; [left; assumption|]. apply bad_root_same; reflexivity. }
  destruct Hgo as (G1 & G2 & G3). split; [constructor; assumption|]. intros [Hb|Hb]; [auto|right; auto].
Qed.

(* ---------- runs: intact, or damaged for good ---------- *)

#[local] Existing Instance any_key.

Lemma keys_next c e o e' r ops : enc_step c e o = Ret (e', r) -> keys_ok (has_sk e) (o :: ops) -> keys_ok (has_sk e') ops.
Proof.
  intros H Hk. apply step_ext in H as (_ & Hsk & _). unfold has_sk in *.
  destruct o as [k|v|n| | | |t]; cbn [keys_ok] in Hk;
    try (replace (match en_sk e' with Some _ => true | None => false end)
          with (match en_sk e with Some _ => true | None => false end);
         [tauto|]; destruct (en_sk e), (en_sk e'); try reflexivity; exfalso;
         [assert (Hx : @Some shared_keys s = None) by (apply Hsk; reflexivity); discriminate Hx
         |assert (Hx : @Some shared_keys s = None) by (apply Hsk; split; [reflexivity|intros; discriminate]); discriminate Hx]).
  destruct (en_sk e'); [tauto|]. exfalso. apply (proj2 (proj1 Hsk eq_refl) t). reflexivity.
Qed.

Definition next (b : bstate) (o : op) : bstate := match b_step b o with Ok b' => b' | Err _ => b end.

Lemma step_either c e b o e' r ops :
  sort_ok (c_sort c) -> enc_step c e o = Ret (e', r) -> V e -> sh e b -> inv e b \/ vbad e ->
  good_op o -> plain_op o = true -> polite_op b o -> keys_ok (has_sk e) (o :: ops) -> pot e + op_size o < 131072 ->
  V e' /\ sh e' (next b o) /\ (inv e' (next b o) \/ vbad e') /\ pot e' <= pot e + op_size o.
Proof.
  intros Hso H HV Hsh Hor Hg Hpl Hpo Hk Hp.
  pose proof (step_V c e b o e' r Hso H HV Hsh Hg Hpl Hpo Hp) as [HV' Hvb].
  assert (Hmx : pot e + op_size o <= MAX_WIDE) by (unfold MAX_WIDE; lia).
  assert (Hbel : r <> Err PointerTooLarge /\ pot e' <= pot e + op_size o).
  { destruct (step_below c e o e' r Hso H (tame_below _ (v_tame _ HV))) as (B1 & _ & B3); auto.
    eapply answered_written, (good_answered (c_dbg c)). exact Hg. }
  destruct Hbel as [Hr Hpot].
  assert (Hsh' : sh e' (next b o)).
  { assert (Hreg : regular b o) by (destruct o; cbn [regular polite_op] in *; auto).
    pose proof (step_sh c e b o e' r H Hsh Hreg) as Hss. unfold sh_step, next in *. destruct (b_step b o); destruct Hss as [[_ Hs]|Hs]; congruence || exact Hs. }
  split; [exact HV'|]. split; [exact Hsh'|]. split; [|exact Hpot].
  destruct Hor as [Hi|Hb]; [|right; auto].
  assert (Hcall : call_ok c e b o \/ vbad e').
  { destruct o as [k|v|n| | | |t]; cbn [call_ok good_op polite_op keys_ok enc_step op_size] in *.
    - left. destruct Hk as [Hk _]. split; [exact Hg|]. split; [|split; [exact Hpo|intros _; exact I]].
      intros Hne. apply Hk. unfold has_sk. destruct (en_sk e); congruence.
    - left. exact Hg.
    - left. exact Hg.
    - destruct (top_fits c e) eqn:Ef; [left; destruct (b_stack b) as [|[l|l [k2|]] fr]; auto|].
      pose proof (i_stack _ _ Hi) as Hst. destruct (b_stack b) as [|[l|l [k2|]] fr] eqn:Eb; auto.
      right. inversion Hst as [|cc ? st ? Hcr Hst' E1 E2]; subst. inversion Hcr; subst. symmetry in E1.
      eapply close_array_V; eauto; [exact (sh_pend e b _ _ Hsh E1)|lia].
    - left. exact Hpo.
    - destruct (top_fits c e) eqn:Ef; [left; destruct (b_stack b) as [|[l|l [k2|]] fr]; auto|].
      pose proof (i_stack _ _ Hi) as Hst. destruct (b_stack b) as [|[l|l [k2|]] fr] eqn:Eb; auto.
      right. inversion Hst as [|cc ? st ? Hcr Hst' E1 E2]; subst. inversion Hcr; subst. symmetry in E1.
      eapply close_dict_V; eauto; [exact (sh_pend e b _ _ Hsh E1)|lia].
    - left. unfold has_sk in Hk. destruct (en_sk e); [destruct Hk; discriminate|]. cbn. auto. }
  destruct Hcall as [Hcall|Hb]; [left|right; exact Hb].
  pose proof (step_ok c e b o Hso Hi Hcall Hmx) as Hst. unfold step_rel, next in *.
  destruct (b_step b o) as [b'|er]; destruct Hst as (e1 & E1 & Hi1 & _); rewrite H in E1; apply Ret_inj in E1; apply (f_equal fst) in E1; cbn [fst] in E1; subst e1; exact Hi1.
Qed.

Lemma run_either c : sort_ok (c_sort c) -> forall ops e b e' rs,
  enc_run c e ops = Ret (e', rs) -> V e -> sh e b -> inv e b \/ vbad e ->
  Forall good_op ops -> forallb plain_op ops = true -> polite b ops -> keys_ok (has_sk e) ops -> pot e + ops_size ops < 131072 ->
  V e' /\ sh e' (fst (b_run b ops)) /\ (inv e' (fst (b_run b ops)) \/ vbad e') /\ pot e' <= pot e + ops_size ops.
Proof.
  intros Hso. induction ops as [|o ops IH]; intros e b e' rs H HV Hsh Hor Hg Hpl Hpo Hk Hp; cbn [enc_run ops_size fold_right b_run fst] in *.
  - apply Ret_inj in H. apply (f_equal fst) in H. cbn [fst] in H. subst e'. split; [exact HV|]. split; [exact Hsh|]. split; [exact Hor|lia].
  - fold (ops_size ops) in *. inversion Hg as [|? ? Hg1 Hg2]; subst. apply andb_prop in Hpl as [Hpl1 Hpl2]. cbn [polite] in Hpo. destruct Hpo as [Hpo1 Hpo2].
    destruct (enc_step c e o) as [[e1 r1]| | |] eqn:E; try discriminate. cbn [bind fst snd] in H.
    destruct (enc_run c e1 ops) as [[e2 r2]| | |] eqn:E2; try discriminate. cbn [bind fst snd] in H.
    apply Ret_inj in H. apply (f_equal fst) in H. cbn [fst] in H. subst e2.
    assert (0 <= ops_size ops).
    { apply ops_size_nonneg. eapply Forall_impl; [|exact Hg2]. intros x Hx. eapply answered_written, (good_answered true). exact Hx. }
    destruct (step_either c e b o e1 r1 ops Hso E HV Hsh Hor Hg1 Hpl1 Hpo1 Hk ltac:(lia)) as (S1 & S2 & S3 & S4).
    pose proof (keys_next _ _ _ _ _ _ E Hk) as Hk'.
    destruct (IH e1 (next b o) e' r2 E2 S1 S2 S3 Hg2 Hpl2 Hpo2 Hk' ltac:(lia)) as (R1 & R2 & R3 & R4).
    unfold next in *. destruct (b_step b o); cbn [fst]; (split; [exact R1|]; split; [exact R2|]; split; [exact R3|lia]).
Qed.

(** Forgetting a key that waits for its value. *)
Definition forget_b (b : bstate) : bstate :=
  match b_stack b with FDict l (Some _) :: fr => mk_b (FDict l None :: fr) (b_root b) | _ => b end.
Lemma forget_V e : V e -> V (forget_key e).
Proof.
  intros HV. pose proof HV as [Ht [Hc1 Hc2] Hk]. destruct (forget_tame e Ht) as (F1 & _ & F3). revert F1. unfold forget_key.
  destruct (en_stack e) as [|[vs|vs [k|]] st] eqn:E; intros F1; try exact HV.
  constructor; [exact F1| |]; unfold clean in *; cbn [set_stack en_out en_stack].
  - split; [|exact Hc2]. inversion Hc1 as [|? ? C1 C2]; subst. constructor; [|exact C2]. destruct C1 as [C1 _]. split; [exact C1|exact I].
  - inversion Hk as [|? ? K1 K2]; subst. constructor; [|exact K2]. unfold cknown in *. cbn [vslots pslot] in *.
    apply Forall_app in K1 as [K1 _]. rewrite app_nil_r. exact K1.
Qed.
Lemma forget_bad e : vbad e -> vbad (forget_key e).
Proof.
  unfold vbad, forget_key. destruct (en_stack e) as [|[vs|vs [k|]] st] eqn:E; try (rewrite E; auto; fail).
  cbn [set_stack en_out en_stack]. intros [Hb|(Hb & _)]; [|congruence]. left. apply Exists_cons in Hb as [Hb|Hb]; [apply Exists_cons_hd; exact Hb|apply Exists_cons_tl; exact Hb].
Qed.
Lemma forget_sh e b : sh e b -> sh (forget_key e) (forget_b b).
Proof.
  intros Hs. pose proof Hs as [S1 S2 S3 S4]. unfold forget_key, forget_b.
  destruct (sh_cases _ _ Hs) as [(E1 & E2)|[(?&?&?&?&E1&E2&_)|[(?&?&?&?&E1&E2&_)|(vs&k&st&l&k2&fr&E1&E2&E3)]]]; rewrite E1, E2; try exact Hs.
  rewrite E1 in *. rewrite E2 in *. constructor; cbn [set_stack en_stack en_closed b_stack b_root map tl ckind fkind]; auto.
  - f_equal. exact E3.
  - intros Hr. specialize (S4 Hr). discriminate.
Qed.
Lemma forget_inv e b : inv e b -> inv (forget_key e) (forget_b b).
Proof.
  intros Hi. pose proof (i_stack _ _ Hi) as Hst. unfold forget_key, forget_b.
  destruct (en_stack e) as [|[vs|vs [k|]] st] eqn:E; destruct (b_stack b) as [|[l|l [k2|]] fr] eqn:Eb; try exact Hi;
    inversion Hst as [|? ? ? ? Hc Hst2 X1 X2]; subst; inversion Hc; subst.
  destruct (drop_pending e b vs (Some k) st Hi E) as (l1 & fr1 & pk & Eb1 & Hr & Hi0 & _). rewrite Eb in Eb1. injection Eb1 as <- <- <-.
  rewrite Hr. exact Hi0.
Qed.
Lemma forget_finish b : b_finish (forget_b b) = b_finish b.
Proof. unfold b_finish, forget_b. destruct (b_stack b) as [|[l|l [k|]] fr] eqn:E; try rewrite E; reflexivity. Qed.

Lemma finish_either c : sort_ok (c_sort c) -> forall n e b bs,
  length (en_stack e) = n -> V e -> sh e b -> inv e b \/ vbad e -> pot e < 131072 -> finish c e = Ret bs ->
  exists e', bs = en_out e' /\ en_sk e' = en_sk e /\ lenZ bs <= pot e /\
    ((exists b', inv e' b' /\ b_stack b' = [] /\ b_root b' = b_finish b) \/ bad_root e').
Proof.
  intros Hso. induction n as [|n IH]; intros e b bs Hn HV Hsh Hor Hp H; rewrite finish_unfold in H.
  - destruct (en_stack e) as [|cc st] eqn:Est; [|discriminate]. apply Ret_inj in H. exists e. split; [auto|]. split; [reflexivity|].
    split; [unfold pot; rewrite Est; cbn [stack_pot]; subst bs; lia|].
    destruct Hor as [Hi|[Hb|Hb]]; [left|rewrite Est in Hb; inversion Hb|right; exact Hb].
    pose proof (i_stack _ _ Hi) as Hst. rewrite Est in Hst. destruct (b_stack b) eqn:Eb; [|inversion Hst]. exists b. split; [exact Hi|]. split; [exact Eb|].
    unfold b_finish. rewrite Eb. reflexivity.
  - destruct (en_stack e) as [|cc st] eqn:Est; [discriminate|].
    destruct (enc_step c (forget_key e) (end_of cc)) as [[e1 r1]| | |] eqn:E1; try discriminate. cbn [bind fst] in H.
    pose proof (end_length c e cc st e1 r1 Est E1) as Hl.
    destruct (forget_tame e (v_tame _ HV)) as (_ & Fp & _).
    pose proof (forget_sh _ _ Hsh) as Hsh0.
    assert (Hs : op_size (end_of cc) = 0) by (destruct cc; reflexivity).
    assert (Hstack0 : exists cc0, en_stack (forget_key e) = cc0 :: st /\ ckind cc0 <> Some true /\ end_of cc0 = end_of cc).
    { unfold forget_key. rewrite Est. destruct cc as [vs|vs [k|]]; [rewrite Est; eexists; split; [reflexivity|split; [discriminate|reflexivity]]|
        cbn [set_stack en_stack]; eexists; split; [reflexivity|split; [discriminate|reflexivity]]|
        rewrite Est; eexists; split; [reflexivity|split; [discriminate|reflexivity]]]. }
    destruct Hstack0 as (cc0 & Es0 & Hk0 & He0).
    assert (Hbs : exists f fr, b_stack (forget_b b) = f :: fr /\ b_root (forget_b b) = None /\
              polite_op (forget_b b) (end_of cc) /\ next (forget_b b) (end_of cc) = b_pop (forget_b b)).
    { destruct (sh_cases _ _ Hsh0) as [(X1 & X2)|[(vs&st2&l&fr&X1&X2&_)|[(vs&st2&l&fr&X1&X2&_)|(?&?&?&?&?&?&X1&X2&_)]]]; try congruence.
      - exists (FArr l), fr. rewrite Es0 in X1. injection X1 as -> ->. cbn [end_of] in He0. rewrite <- He0.
        assert (Hr : b_root (forget_b b) = None) by (destruct (b_root (forget_b b)) eqn:Er; [|reflexivity]; pose proof (sh_root _ _ Hsh0) as Hx; rewrite Er, X2 in Hx; specialize (Hx ltac:(discriminate)); discriminate).
        unfold next. cbn [polite_op b_step]. rewrite X2. auto.
      - exists (FDict l None), fr. rewrite Es0 in X1. injection X1 as -> ->. cbn [end_of] in He0. rewrite <- He0.
        assert (Hr : b_root (forget_b b) = None) by (destruct (b_root (forget_b b)) eqn:Er; [|reflexivity]; pose proof (sh_root _ _ Hsh0) as Hx; rewrite Er, X2 in Hx; specialize (Hx ltac:(discriminate)); discriminate).
        unfold next. cbn [polite_op b_step]. rewrite X2. auto.
      - rewrite Es0 in X1. injection X1 as -> ->. cbn [ckind] in Hk0. congruence. }
    destruct Hbs as (f & fr & Hb1 & Hb2 & Hb3 & Hb4).
    destruct (step_either c (forget_key e) (forget_b b) (end_of cc) e1 r1 [] Hso E1 (forget_V _ HV) Hsh0) as (S1 & S2 & S3 & S4); auto.
    { destruct Hor as [Hi|Hb]; [left; apply forget_inv; exact Hi|right; apply forget_bad; exact Hb]. }
    { destruct cc; exact I. } { destruct cc; reflexivity. } { destruct cc; exact I. } { lia. }
    rewrite Hb4 in *.
    destruct (IH e1 (b_pop (forget_b b)) bs) as (e' & R1 & R2 & R3 & R4); auto; [cbn [length] in Hn; lia|lia|].
    exists e'. split; [exact R1|]. split.
    { rewrite R2. apply step_ext in E1 as (_ & _ & Hsk). rewrite Hsk by (destruct cc; discriminate).
      unfold forget_key. destruct (en_stack e) as [|[?|? [?|]] ?]; reflexivity. }
    split; [lia|]. rewrite (b_finish_pop _ _ _ Hb1 Hb2), forget_finish in R4. exact R4.
Qed.

(* ---------- what the reader says ---------- *)

Lemma bad_root_read e' dbg base sk :
  bad_root e' -> addressable base (en_out e') -> lenZ (en_out e') < two63 ->
  from_bytes (mk_env dbg base (en_out e') sk) = Ret (Err PointerOffsetZero).
Proof.
  intros (_ & _ & D0 & p & lim & HD & Hc & Hev & Hmx) [Hb1 Hb2] H63. set (m := mk_env dbg base (en_out e') sk).
  assert (Hok : env_ok m) by (unfold env_ok, m; cbn [e_base e_data]; auto).
  pose proof (chk_bounds _ _ _ _ Hc) as (Hp0 & Hp1 & Hl & Hpe).
  assert (Hc' : chk (e_data m) p lim false) by (unfold m; cbn [e_data]; rewrite HD; apply chk_mono; exact Hc).
  assert (Hnp : nonptr m (Decode.V p (lenZ D0 - p))) by (eapply chk_nonptr; eauto; lia).
  destruct (tail_read m D0 p HD Hok ltac:(lia) Hpe Hev Hmx Hnp) as [Hf _].
  unfold from_bytes. rewrite Hf. cbn [bindr].
  pose proof (chk_bounds _ _ _ _ Hc') as (_ & _ & Hl' & _).
  rewrite (chk_validate m p lim false); auto; try lia.
  unfold fuel_of. unfold lenZ in Hl'. lia.
Qed.

(** Below 128 KiB the document is either right or refused. *)
Theorem intact_or_refused c prefix ops :
  sort_ok (c_sort c) -> lenZ prefix mod 2 = 0 -> all_bytes prefix ->
  Forall good_op ops -> forallb plain_op ops = true -> keys_ok false ops -> polite b_init ops ->
  lenZ prefix + ops_size ops < 131072 ->
  exists e' D, let bs := prefix ++ D in
    enc_run c (enc_new_to_vec prefix) ops = Ret (e', snd (b_run b_init ops)) /\ finish c e' = Ret bs /\
    forall t, b_finish (fst (b_run b_init ops)) = Some t ->
      (forall dbg base, addressable base bs -> decodes_to dbg base bs (en_sk e') t) \/
      (forall dbg base sk, addressable base bs -> from_bytes (mk_env dbg base bs sk) = Ret (Err PointerOffsetZero)).
Proof.
  intros Hso Hev Hby Hg Hpl Hk Hpo Hp.
  assert (Hans : Forall (answered_op (c_dbg c)) ops) by (eapply Forall_impl; [|exact Hg]; intros o; apply good_answered).
  destruct (always_answers c prefix ops Hso Hev Hby Hans) as (e' & rs & bs & E & _ & Hrs & Hf & _); [unfold MAX_WIDE; lia|].
  rewrite (Hrs (polite_regular _ _ Hpo)) in E. destruct (run_prefix_kept _ _ _ _ _ _ E Hf) as [D HD]. exists e', D. cbn zeta. rewrite <- HD.
  split; [exact E|]. split; [exact Hf|]. clear D HD. intros t Ht.
  assert (Hpot : pot (enc_new_to_vec prefix) = lenZ prefix) by (unfold pot; cbn [enc_new_to_vec en_out en_stack stack_pot]; lia).
  destruct (run_either c Hso ops _ b_init _ _ E) as (R1 & R2 & R3 & R4); auto.
  { constructor; [constructor; [exact Hev|exact Hby|constructor]|split; [constructor|apply lenZ_nonneg]|constructor]. }
  { apply sh_init. }
  { left. apply inv_init. exact Hev. }
  { lia. }
  destruct (finish_either c Hso _ e' _ bs eq_refl R1 R2 R3 ltac:(lia) Hf) as (e2 & -> & Esk & Hl & [(b' & Hi & Hb1 & Hb2)|Hbad]).
  - left. intros dbg base [Ha1 Ha2]. pose proof (i_root _ _ Hi) as Hr. rewrite Hb2, Ht in Hr. destruct Hr as (_ & _ & Hrt).
    apply rooted_read in Hrt as (v & t' & Hts & Hall). 
    assert (Hok : env_ok (mk_env dbg base (en_out e2) (en_sk e'))) by (unfold env_ok, two63; cbn [e_base e_data]; split; [exact Ha1|]; split; [exact Ha2|lia]).
    destruct (Hall (mk_env dbg base (en_out e2) (en_sk e')) eq_refl Hok) as (H1 & H2 & H3).
    exists v, t'. split; [exact H1|]. split; [exact H2|]. split; [|exact Hts].
    apply read_vstored; [exact Hok|]. rewrite Esk in H3. exact H3.
  - right. intros dbg base sk Ha. apply bad_root_read; auto. unfold two63. lia.
Qed.

(** So whatever [from_bytes] accepts is what was written. *)
Theorem accepted_is_intact c prefix ops e' rs bs t dbg base v :
  sort_ok (c_sort c) -> lenZ prefix mod 2 = 0 -> all_bytes prefix ->
  Forall good_op ops -> forallb plain_op ops = true -> keys_ok false ops -> polite b_init ops ->
  lenZ prefix + ops_size ops < 131072 ->
  enc_run c (enc_new_to_vec prefix) ops = Ret (e', rs) -> finish c e' = Ret bs ->
  b_finish (fst (b_run b_init ops)) = Some t -> addressable base bs ->
  from_bytes (mk_env dbg base bs (en_sk e')) = Ret (Ok v) ->
  exists t', read_doc (mk_env dbg base bs (en_sk e')) v = Ret t' /\ tsim t t'.
Proof.
  intros Hso Hev Hby Hg Hpl Hk Hpo Hp Hr Hf Ht Ha Hb.
  destruct (intact_or_refused c prefix ops Hso Hev Hby Hg Hpl Hk Hpo Hp) as (e2 & D & E & F & Hall). cbn zeta in *.
  assert (Ee : Ret (e', rs) = Ret (e2, snd (b_run b_init ops))) by congruence. apply Ret_inj in Ee. apply (f_equal fst) in Ee. cbn [fst] in Ee. subst e2.
  assert (Eb : Ret bs = Ret (prefix ++ D)) by congruence. apply Ret_inj in Eb. subst bs.
  destruct (Hall t Ht) as [H|H].
  - destruct (H dbg base Ha) as (v' & t' & H1 & _ & H3 & H4). rewrite Hb in H1. injection H1 as ->. exists t'. auto.
  - rewrite (H dbg base (en_sk e') Ha) in Hb. discriminate.
Qed.

(* ---------- for the examples: results too long to be compared ---------- *)

Definition bytes_of (r : outcome (list (result unit encode_error) * list Z * option shared_keys)) : list Z :=
  match r with Ret (_, bs, _) => bs | _ => [] end.
Definition entries_of (r : outcome tree) : list (list Z * tree) := match r with Ret (TDict l) => l | _ => [] end.
Lemma is_doc r rs sk :
  match r with Ret (a, _, k) => (a, k) | _ => ([], None) end = (rs, Some sk) -> r = Ret (rs, bytes_of r, Some sk).
Proof. destruct r as [[[a b] k]| | |]; try discriminate. intros H. injection H as -> ->. reflexivity. Qed.
Lemma is_dict r : match r with Ret (TDict _) => true | _ => false end = true -> r = Ret (TDict (entries_of r)).
Proof. destruct r as [[]| | |]; try discriminate. reflexivity. Qed.

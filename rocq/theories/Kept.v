(** Small documents: what is read back is what [KeptSpec.kept] says. *)
From Verif Require Import Prelude Lib Varint VarintProofs Utf8 Float SharedKeys
  Decode Read Encodable Encoder BuilderSpec LayoutSpec Holds Repr EncodableProofs Stored StoredRead SlotProofs
  EncoderProofs EncoderInv EncoderClean EncoderLayout EncoderProtocol Isort PathSpec Lookup Path ValueSpec Access Flat KeptSpec.
From Coq Require Import ZifyBool ZifyNat ZifyN Sorted Permutation.
Ltac Zify.zify_post_hook ::= Z.div_mod_to_equations.
#[local] Existing Instance any_key.

(* ---------- slots without the bit that narrow writing clears ---------- *)

Definition ns (s : sized) : sized :=
  if is_ptr s then s else match s with b0 :: r => Z.land b0 0xBF :: r | [] => [] end.
Definition nd (d : delem) : delem := mk_delem (de_key d) (ns (de_val d)).
Definition nc (c : coll) : coll :=
  match c with CArr vs => CArr (map ns vs) | CDict vs k => CDict (map nd vs) k end.
Definition ne (e : enc) : enc := set_stack e (map nc (en_stack e)).

Lemma land_BF_F0 b : Z.land (Z.land b 0xBF) 0xF0 = Z.land (Z.land b 0xF0) 0xB0.
Proof. rewrite <- !Z.land_assoc. reflexivity. Qed.
Lemma type_ptr_hi b : vtype_eqb (type_of_byte b) TyPointer =
  negb (existsb (Z.eqb (Z.land b 0xF0)) [0; 0x10; 0x20; 0x30; 0x40; 0x50; 0x60; 0x70]).
Proof.
  unfold type_of_byte, TAG_SPECIAL, TAG_SHORT, TAG_INT, TAG_FLOAT, TAG_STRING, TAG_DATA, TAG_ARRAY, TAG_DICT. cbv zeta.
  set (hi := Z.land b 0xF0). cbn [existsb].
  destruct (hi =? 48) eqn:E3.
  { assert (hi = 48) as -> by lia. cbn. repeat match goal with |- context [if ?x then _ else _] => destruct x end; reflexivity. }
  destruct (hi =? 0) eqn:E0; [reflexivity|].
  destruct (hi =? 16) eqn:E1; [cbn; destruct (Z.land b _ =? 0); reflexivity|].
  destruct (hi =? 32) eqn:E2; [cbn; repeat match goal with |- context [if ?x then _ else _] => destruct x end; reflexivity|].
  destruct (hi =? 64); [reflexivity|]. destruct (hi =? 80); [reflexivity|]. destruct (hi =? 96); [reflexivity|].
  destruct (hi =? 112); reflexivity.
Qed.
Lemma clear_not_ptr b : vtype_eqb (type_of_byte b) TyPointer = false -> vtype_eqb (type_of_byte (Z.land b 0xBF)) TyPointer = false.
Proof.
  rewrite !type_ptr_hi, land_BF_F0. intros H. apply negb_false_iff in H. apply existsb_exists in H as (x & Hin & Hx).
  apply Z.eqb_eq in Hx. rewrite Hx. cbn [In] in Hin.
  repeat (destruct Hin as [<-|Hin]; [reflexivity|]). contradiction.
Qed.
Lemma is_ptr_ns s : is_ptr (ns s) = is_ptr s.
Proof.
  unfold ns. destruct (is_ptr s) eqn:E; [exact E|]. destruct s as [|b0 r]; [exact E|].
  unfold is_ptr, sized_type in *. cbn [nth] in *. apply clear_not_ptr. exact E.
Qed.
Lemma ns_ptr s : is_ptr s = true -> ns s = s.
Proof. unfold ns. intros ->. reflexivity. Qed.
Lemma new_pointer_ptr off p : new_pointer off = Some p -> 0 <= off -> is_ptr p = true.
Proof.
  intros H H0. unfold new_pointer in H. destruct (MAX_WIDE <? off) eqn:E; [discriminate|].
  assert (Hn : new_pointer off = Some (mkptr off)) by (apply new_pointer_ok; lia).
  unfold new_pointer in Hn. rewrite E in Hn. rewrite Hn in H. injection H as <-. apply is_ptr_mkptr. lia.
Qed.

(** Two slots that are written alike in a narrow collection. *)
Definition alike (s s' : sized) : Prop :=
  sized_fleece_size s = sized_fleece_size s' /\ forall n, write_sized s n false = write_sized s' n false.
Lemma alike_refl s : alike s s.
Proof. split; [reflexivity|intros; reflexivity]. Qed.
Lemma alike_ns s : alike s (ns s).
Proof.
  destruct (is_ptr s) eqn:E; [rewrite ns_ptr by exact E; apply alike_refl|].
  pose proof (is_ptr_ns s) as E2. rewrite E in E2. unfold is_ptr in E, E2.
  split.
  - unfold sized_fleece_size. destruct (sized_type s); try discriminate; destruct (sized_type (ns s)); try discriminate; reflexivity.
  - intros n. unfold write_sized.
    assert (Hb : Z.land (nth 0 (ns s) 0) 191 = Z.land (nth 0 s 0) 191 /\ nth 1 (ns s) 0 = nth 1 s 0).
    { unfold ns, is_ptr. rewrite E. destruct s as [|b0 r]; [split; reflexivity|]. cbn [nth]. split; [|reflexivity].
      rewrite <- Z.land_assoc. reflexivity. }
    destruct Hb as [Hb1 Hb2]. rewrite Hb1, Hb2.
    destruct (sized_type s); try discriminate; destruct (sized_type (ns s)); try discriminate; reflexivity.
Qed.

(* ---------- the width of a collection ---------- *)

Lemma array_wide_ns dbg n vs : array_should_be_wide dbg n (map ns vs) = array_should_be_wide dbg n vs.
Proof.
  induction vs as [|s vs IH]; [reflexivity|]. cbn [map array_should_be_wide]. rewrite is_ptr_ns, IH.
  destruct (is_ptr s) eqn:E; [rewrite ns_ptr by exact E|]; reflexivity.
Qed.
Lemma dict_wide_nd dbg n vs : forall len, dict_should_be_wide dbg n len (map nd vs) = dict_should_be_wide dbg n len vs.
Proof.
  induction vs as [|d vs IH]; intros len; [reflexivity|]. cbn [map dict_should_be_wide nd de_key de_val]. rewrite is_ptr_ns, IH.
  destruct (is_ptr (de_val d)) eqn:E; [rewrite ns_ptr by exact E|]; reflexivity.
Qed.

Lemma array_narrow dbg n vs : n <= MAX_NARROW -> Forall (swf n) vs -> array_should_be_wide dbg n vs = Ret false.
Proof.
  intros Hn. induction 1 as [|s vs Hs _ IH]; [reflexivity|]. cbn [array_should_be_wide].
  destruct Hs as [(b0 & b1 & -> & Hsc)|(off & -> & Ho & _ & Hlt)].
  - rewrite scalar_not_ptr by exact Hsc. exact IH.
  - assert (Hw : 0 <= off <= MAX_WIDE) by (unfold MAX_NARROW, MAX_WIDE in *; lia).
    rewrite is_ptr_mkptr by exact Hw. unfold actual_pointer_offset. rewrite pointer_offset_mkptr by exact Hw.
    unfold usize_sub. destruct (off <=? n) eqn:E; [|lia]. cbn [bind]. rewrite wrap_u32_id by (unfold two32, MAX_NARROW in *; lia).
    destruct (MAX_NARROW <? n - off) eqn:E2; [lia|exact IH].
Qed.

Lemma dict_narrow dbg n : n <= MAX_NARROW -> forall vs len, n <= len ->
  Forall (fun d => kgood n (de_key d) /\ swf n (de_val d)) vs ->
  dict_should_be_wide dbg n len vs = Ret false.
Proof.
  intros Hn. induction vs as [|d vs IH]; intros len Hlen H; [reflexivity|].
  inversion H as [|? ? [Hk Hv] Hr]; subst. cbn [dict_should_be_wide]. specialize (IH (len + 2) ltac:(lia) Hr).
  assert (Hcv : (if is_ptr (de_val d) then
          off <- actual_pointer_offset dbg (de_val d) n ;;
          if MAX_NARROW <? off then Ret true
          else dict_should_be_wide dbg n (len + 2) vs
        else dict_should_be_wide dbg n (len + 2) vs) = Ret false).
  { destruct Hv as [(b0 & b1 & -> & Hsc)|(off & -> & Ho & _ & Hlt)].
    - rewrite scalar_not_ptr by exact Hsc. exact IH.
    - rewrite is_ptr_mkptr by exact Ho. unfold actual_pointer_offset. rewrite pointer_offset_mkptr by exact Ho.
      unfold usize_sub. destruct (off <=? n) eqn:E; [|lia]. cbn [bind].
      rewrite wrap_u32_id by (unfold two32, MAX_NARROW in *; lia).
      destruct (MAX_NARROW <? n - off) eqn:E2; [lia|exact IH]. }
  destruct (de_key d) as [s|i|s off]; cbn [kgood] in Hk; try exact Hcv.
  unfold usize_sub. destruct (off <=? len) eqn:E1; [|lia]. cbn [bind].
  destruct (len - off <=? len) eqn:E2; [|lia]. cbn [bind].
  destruct (MAX_NARROW <? len - (len - off)) eqn:E3; [lia|exact Hcv].
Qed.

(* ---------- writing ---------- *)

Lemma enc_write_ne c c2 e v w k : c_dbg c2 = c_dbg c ->
  enc_write c2 (ne e) v w k = (r <- enc_write c e v w k ;; Ret (ne (fst r), snd r)).
Proof.
  intros Hd. unfold enc_write. rewrite Hd. cbn [ne set_stack en_out].
  destruct (write_to _ _ _ _) as [[bs|]| | |]; try reflexivity. cbn [bind]. destruct (lenZ bs =? _); reflexivity.
Qed.
Lemma enc_write_alike c e s s' : alike s s' ->
  enc_write c e (ESized s') false false = enc_write c e (ESized s) false false.
Proof. intros [H1 H2]. unfold enc_write. cbn [andb fleece_size write_to]. rewrite <- H1, <- H2. reflexivity. Qed.

Lemma fix_array_alike dbg w : forall vs len,
  (exists r r', fix_array_pointers dbg len w vs = Ret r /\ fix_array_pointers dbg len w (map ns vs) = Ret r' /\ Forall2 alike r r') \/
  (forall r, fix_array_pointers dbg len w vs <> Ret r) /\ fix_array_pointers dbg len w (map ns vs) = fix_array_pointers dbg len w vs.
Proof.
  induction vs as [|s vs IH]; intros len; [left; exists [], []; auto|]. cbn [map fix_array_pointers].
  assert (Hs : (exists x x', (if is_ptr s then fix_pointer dbg s len else Ret s) = Ret x /\
                 (if is_ptr (ns s) then fix_pointer dbg (ns s) len else Ret (ns s)) = Ret x' /\ alike x x') \/
               (forall x, (if is_ptr s then fix_pointer dbg s len else Ret s) <> Ret x) /\
                 (if is_ptr (ns s) then fix_pointer dbg (ns s) len else Ret (ns s)) = (if is_ptr s then fix_pointer dbg s len else Ret s)).
  { rewrite is_ptr_ns. destruct (is_ptr s) eqn:E.
    - rewrite ns_ptr by exact E. destruct (fix_pointer dbg s len) as [x| | |];
        [left; exists x, x; split; [reflexivity|]; split; [reflexivity|apply alike_refl]|right; split; [discriminate|reflexivity]..].
    - left. exists s, (ns s). split; [reflexivity|]. split; [reflexivity|apply alike_ns]. }
  destruct Hs as [(x & x' & -> & -> & Ha)|[Hn ->]].
  - cbn [bind]. destruct (u32_add dbg len w) as [len'| | |]; [|right; split; [discriminate|reflexivity]..]. cbn [bind].
    destruct (IH len') as [(r & r' & -> & -> & HF)|[Hn ->]].
    + left. exists (x :: r), (x' :: r'). cbn [bind]. auto.
    + right. destruct (fix_array_pointers dbg len' w vs); [destruct (Hn a); reflexivity|split; [discriminate|reflexivity]..].
  - right. destruct (if is_ptr s then _ else _); [destruct (Hn a); reflexivity|split; [discriminate|reflexivity]..].
Qed.
Definition alike_d (d d' : delem) : Prop := de_key d = de_key d' /\ alike (de_val d) (de_val d').
Lemma fix_dict_alike dbg w : forall vs len,
  (exists r r', fix_dict_pointers dbg len w vs = Ret r /\ fix_dict_pointers dbg len w (map nd vs) = Ret r' /\ Forall2 alike_d r r') \/
  (forall r, fix_dict_pointers dbg len w vs <> Ret r) /\ fix_dict_pointers dbg len w (map nd vs) = fix_dict_pointers dbg len w vs.
Proof.
  induction vs as [|d vs IH]; intros len; [left; exists [], []; auto|]. cbn [map fix_dict_pointers nd de_key de_val].
  destruct (match de_key d with DKPointer s off => _ | _ => _ end) as [k'| | |];
    [|right; split; [discriminate|reflexivity]..]. cbn [bind].
  destruct (u32_add dbg len w) as [len1| | |]; [|right; split; [discriminate|reflexivity]..]. cbn [bind].
  set (s := de_val d).
  assert (Hs : (exists x x', (if is_ptr s then fix_pointer dbg s len1 else Ret s) = Ret x /\
                 (if is_ptr (ns s) then fix_pointer dbg (ns s) len1 else Ret (ns s)) = Ret x' /\ alike x x') \/
               (forall x, (if is_ptr s then fix_pointer dbg s len1 else Ret s) <> Ret x) /\
                 (if is_ptr (ns s) then fix_pointer dbg (ns s) len1 else Ret (ns s)) = (if is_ptr s then fix_pointer dbg s len1 else Ret s)).
  { rewrite is_ptr_ns. destruct (is_ptr s) eqn:E.
    - rewrite ns_ptr by exact E. destruct (fix_pointer dbg s len1) as [x| | |];
        [left; exists x, x; split; [reflexivity|]; split; [reflexivity|apply alike_refl]|right; split; [discriminate|reflexivity]..].
    - left. exists s, (ns s). split; [reflexivity|]. split; [reflexivity|apply alike_ns]. }
  destruct Hs as [(x & x' & -> & -> & Ha)|[Hn ->]].
  - cbn [bind]. destruct (u32_add dbg len1 w) as [len'| | |]; [|right; split; [discriminate|reflexivity]..]. cbn [bind].
    destruct (IH len') as [(r & r' & -> & -> & HF)|[Hn ->]].
    + left. exists (mk_delem k' x :: r), (mk_delem k' x' :: r'). cbn [bind]. split; [reflexivity|]. split; [reflexivity|].
      constructor; [split; [reflexivity|exact Ha]|exact HF].
    + right. destruct (fix_dict_pointers dbg len' w vs); [destruct (Hn a); reflexivity|split; [discriminate|reflexivity]..].
  - right. destruct (if is_ptr s then _ else _); [destruct (Hn a); reflexivity|split; [discriminate|reflexivity]..].
Qed.

Definition ore {A} (m : outcome (enc * A)) : outcome (enc * A) := r <- m ;; Ret (ne (fst r), snd r).
Lemma write_slots_ne c c2 : c_dbg c2 = c_dbg c -> forall r r', Forall2 alike r r' -> forall e,
  write_slots c2 (ne e) false r' = (x <- write_slots c e false r ;; Ret (ne x)).
Proof.
  intros Hd. induction 1 as [|s s' r r' Ha _ IH]; intros e; [reflexivity|]. cbn [write_slots].
  rewrite (enc_write_ne c c2 e _ _ _ Hd). rewrite (enc_write_alike c e s s' Ha).
  destruct (enc_write c e (ESized s) false false) as [[e1 o1]| | |]; try reflexivity. cbn [bind fst]. apply IH.
Qed.
Lemma write_entries_ne c c2 : c_dbg c2 = c_dbg c -> forall r r', Forall2 alike_d r r' -> forall e,
  write_entries c2 (ne e) false r' = ore (write_entries c e false r).
Proof.
  intros Hd. induction 1 as [|d d' r r' [Hk Ha] _ IH]; intros e; [reflexivity|]. cbn [write_entries]. rewrite <- Hk.
  destruct (dictkey_sized (de_key d)) as [[ks|]| | |]; try reflexivity. cbn [bind].
  rewrite (enc_write_ne c c2 e _ _ _ Hd).
  destruct (enc_write c e (ESized ks) false false) as [[e1 o1]| | |]; try reflexivity. cbn [bind fst].
  rewrite (enc_write_ne c c2 e1 _ _ _ Hd). rewrite (enc_write_alike c e1 _ _ Ha).
  destruct (enc_write c e1 (ESized (de_val d)) false false) as [[e2 o2]| | |]; try reflexivity. cbn [bind fst]. apply IH.
Qed.

Lemma finished_ne c c2 e off : c_dbg c2 = c_dbg c -> 0 <= off ->
  finished_collection c2 (ne e) off = ore (finished_collection c e off).
Proof.
  intros Hd H0. unfold finished_collection. change (en_out (ne e)) with (en_out e). rewrite Hd.
  change (en_stack (ne e)) with (map nc (en_stack e)).
  destruct (en_stack e) as [|top st] eqn:Est; cbn [map].
  - destruct (u32_sub _ _ _) as [o| | |]; try reflexivity. cbn [bind]. destruct (o <=? MAX_NARROW).
    + destruct (new_pointer o) as [p|]; [|reflexivity]. rewrite (enc_write_ne c c2 e _ _ _ Hd).
      destruct (enc_write c e _ _ _) as [[e1 o1]| | |]; reflexivity.
    + destruct (new_pointer o) as [p|]; [|unfold ore, ne; cbn [bind fst snd]; rewrite Est; reflexivity].
      rewrite (enc_write_ne c c2 e _ _ _ Hd).
      destruct (enc_write c e _ _ _) as [[e1 o1]| | |]; [|reflexivity..]. cbn [bind fst].
      destruct (new_pointer 4) as [p4|]; [|reflexivity]. rewrite (enc_write_ne c c2 e1 _ _ _ Hd).
      unfold ore. cbn [bind fst snd].
      destruct (enc_write c e1 _ _ _) as [[e2 o2]| | |]; reflexivity.
  - destruct (new_pointer off) as [p|] eqn:En; [|unfold ore, ne; cbn [bind fst snd]; rewrite Est; reflexivity].
    pose proof (new_pointer_ptr off p En H0) as Hp.
    destruct top as [vs|vs [k|]]; cbn [nc]; unfold ore, ne; cbn [bind fst snd set_stack en_out en_sk en_stack en_closed map nc];
      rewrite ?map_app, ?Est; cbn [map nc]; unfold nd; cbn [de_key de_val]; rewrite ?(ns_ptr p Hp); reflexivity.
Qed.

Lemma wrap_u32_nonneg z : 0 <= wrap_u32 z.
Proof. unfold wrap_u32, two32. lia. Qed.
Lemma enc_write_off c e v w k e1 o : enc_write c e v w k = Ret (e1, o) -> 0 <= o.
Proof. intros H. apply enc_write_grown in H as [_ ->]. apply wrap_u32_nonneg. Qed.

Lemma end_array_ne c c2 e : c_dbg c2 = c_dbg c ->
  (forall vs st, en_stack e = CArr vs :: st -> array_should_be_wide (c_dbg c) (lenZ (en_out e)) vs = Ret false) ->
  end_array c2 (ne e) = ore (end_array c e).
Proof.
  intros Hd Hn. unfold end_array. change (en_stack (ne e)) with (map nc (en_stack e)).
  destruct (en_stack e) as [|[vs|vs [k|]] st] eqn:Est; cbn [map nc stack_pop].
  - reflexivity.
  - change (en_out (set_stack (ne e) (map nc st))) with (en_out e). change (en_out (set_stack e st)) with (en_out e).
    rewrite Hd, array_wide_ns, (Hn vs st eq_refl). cbn [bind].
    change (set_stack (ne e) (map nc st)) with (ne (set_stack e st)).
    rewrite (enc_write_ne c c2 _ _ _ _ Hd).
    replace (lenZ (map ns vs)) with (lenZ vs) by (unfold lenZ; rewrite map_length; reflexivity).
    destruct (enc_write c (set_stack e st) _ _ _) as [[e1 o1]| | |] eqn:Ew; try reflexivity. cbn [bind fst snd].
    apply enc_write_off in Ew. change (en_out (ne e1)) with (en_out e1).
    destruct (fix_array_alike (c_dbg c) (width_of false) vs (wrap_u32 (lenZ (en_out e1)))) as [(r & r' & -> & -> & HF)|[Hx ->]].
    + cbn [bind]. rewrite (write_slots_ne c c2 Hd r r' HF e1).
      destruct (write_slots c e1 false r) as [e2| | |]; try reflexivity. cbn [bind]. apply finished_ne; assumption.
    + destruct (fix_array_pointers _ _ _ vs) as [x| | |]; [destruct (Hx x); reflexivity|reflexivity..].
  - reflexivity.
  - reflexivity.
Qed.

Lemma end_dict_ne c c2 e : c_dbg c2 = c_dbg c ->
  (forall vs st, en_stack e = CDict vs None :: st ->
     dict_should_be_wide (c_dbg c) (lenZ (en_out e)) (lenZ (en_out e)) vs = Ret false /\
     c_sort c2 (map nd vs) = map nd (c_sort c vs)) ->
  end_dict c2 (ne e) = ore (end_dict c e).
Proof.
  intros Hd Hn. unfold end_dict. change (en_stack (ne e)) with (map nc (en_stack e)).
  destruct (en_stack e) as [|[vs|vs [k|]] st] eqn:Est; cbn [map nc]; try reflexivity.
  change (en_out (set_stack (ne e) (map nc st))) with (en_out e). change (en_out (set_stack e st)) with (en_out e).
  destruct (Hn vs st eq_refl) as [Hn1 Hn2].
  rewrite Hd, dict_wide_nd, Hn1, Hn2. cbn [bind].
  change (set_stack (ne e) (map nc st)) with (ne (set_stack e st)).
  rewrite (enc_write_ne c c2 _ _ _ _ Hd).
  replace (lenZ (map nd vs)) with (lenZ vs) by (unfold lenZ; rewrite map_length; reflexivity).
  destruct (enc_write c (set_stack e st) _ _ _) as [[e1 o1]| | |] eqn:Ew; try reflexivity. cbn [bind fst snd].
  apply enc_write_off in Ew. change (en_out (ne e1)) with (en_out e1).
  destruct (fix_dict_alike (c_dbg c) (width_of false) (c_sort c vs) (wrap_u32 (lenZ (en_out e1)))) as [(r & r' & -> & -> & HF)|[Hx ->]].
  - cbn [bind]. rewrite (write_entries_ne c c2 Hd r r' HF e1). unfold eseq, ore.
    destruct (write_entries c e1 false r) as [[e2 [u|er]]| | |]; try reflexivity. cbn [bind fst snd]. apply finished_ne; assumption.
  - destruct (fix_dict_pointers _ _ _ (c_sort c vs)) as [x| | |]; [destruct (Hx x); reflexivity|reflexivity..].
Qed.

(* ---------- what is written for a value ---------- *)

Definition kwrote (v : encodable) (t : tree) : Prop :=
  (exists b0 b1, to_sized_value v = Some [b0; b1; 0; 0] /\ is_ptr [b0; b1; 0; 0] = false /\ repr t [Z.land b0 0xBF; b1]) \/
  (to_sized_value v = None /\ forall dbg, exists bs, write_to dbg v (fleece_size v) false = Ret (Some bs) /\
     lenZ bs = fleece_size v /\ repr t bs).

Lemma clear_same b : is_byte b -> Z.land b 64 = 0 -> Z.land b 0xBF = b.
Proof.
  intros Hb H. unfold is_byte in Hb.
  assert (E : implb (Z.land b 64 =? 0) (Z.land b 0xBF =? b) = true).
  { apply (range_sweep (fun b => implb (Z.land b 64 =? 0) (Z.land b 0xBF =? b)) 256); [vm_compute; reflexivity|lia]. }
  rewrite H in E. cbn in E. lia.
Qed.
Lemma wrote_kwrote v t : wf_enc v -> no_short_text v = true -> wrote v t -> kwrote v t.
Proof.
  intros Hw Hn [(b0 & b1 & Es & Hr)|H]; [left|right; exact H]. exists b0, b1. split; [exact Es|].
  assert (Hp : is_ptr [b0; b1; 0; 0] = false) by (apply scalar_not_ptr; eapply repr_scalar_byte; eauto).
  split; [exact Hp|]. pose proof (sized_clean 0 v _ Hw Hn Es) as Hc. unfold sclean in Hc. rewrite Hp in Hc. cbn [nth] in Hc.
  destruct Hr as (Hr1 & Hr2 & Hr3). pose proof (proj1 Hr2) as Hr4. inversion Hr4 as [|? ? Hb _]; subst. rewrite (clear_same b0 Hb Hc). split; [exact Hr1|]. split; assumption.
Qed.
Lemma kept_int_stored t z n : kept_int t z = Some n -> stored_value (EInt t z) = Some (TInt n).
Proof.
  assert (Hw : wrap_i16 z = (z + 32768) mod 65536 - 32768) by (unfold wrap_i16, two16; lia).
  destruct t; cbn [kept_int stored_value]; cbv zeta; rewrite ?Hw; intros H;
    repeat match goal with |- context [if ?b then _ else _] => destruct b eqn:? end; try discriminate; injection H as <-; reflexivity.
Qed.
Lemma repr_int0 : repr (TInt 0) [16; 0].
Proof.
  split; [cbn; lia|]. split; [split; [repeat constructor; unfold is_byte; lia|split; [reflexivity|intros; exfalso; lia]]|]. intros e p len H Hl. change (lenZ [16; 0]) with 2 in *.
  assert (Hv : value_type e (V p len) = Ret TyInt) by (rewrite (holds_type _ _ _ _ _ H) by lia; reflexivity).
  assert (Hb0 : vbyte e (V p len) 0 = Ret 16) by (eapply holds_vbyte0; [exact H|lia]).
  apply holds_cons in H as [_ H1].
  split; [|split].
  - intros f. cbn [read_tree]. rewrite Hv; cbn [bind]. unfold to_int. rewrite Hv; cbn [bind].
    unfold int_payload. rewrite Hb0; cbn [bind v_len v_pos]. change (Z.land 16 7) with 0.
    destruct (len <? 1) eqn:E; [lia|].
    rewrite (holds_raw_bytes _ _ _ _ H1) by (cbn; lia). reflexivity.
  - unfold required_size. rewrite Hv; cbn [bind]. rewrite Hb0. reflexivity.
  - exists TyInt. split; [exact Hv|reflexivity].
Qed.
Lemma kwrote_kept v : forall w, wf_enc v -> kept v = Some w -> kwrote v (tree_of w).
Proof.
  induction v as [ty z|b|b|b| | |s0|s0| |v IH|s0|d n]; intros w Hw Hk; cbn [kept] in Hk;
    try (injection Hk as <-; apply wrote_kwrote; [exact Hw|reflexivity|apply wrote_ok; [exact Hw|reflexivity]]).
  - destruct (kept_int ty z) as [m|] eqn:E; [|discriminate]. injection Hk as <-. cbn [tree_of].
    apply wrote_kwrote; [exact Hw|reflexivity|]. apply wrote_stored; [exact Hw|]. apply kept_int_stored. exact E.
  - destruct s0 as [|x [|y s0]]; injection Hk as <-.
    + left. exists 64, 0. split; [reflexivity|]. split; [reflexivity|]. exact (repr_short 0 ltac:(lia)).
    + destruct Hw as (Hb & _). inversion Hb as [|? ? Hx _]; subst. unfold is_byte in Hx.
      left. exists 65, x. split; [reflexivity|]. split; [reflexivity|]. cbn [tree_of].
      pose proof (repr_short (256 + x) ltac:(lia)) as H. unfold short_bytes, wrap_u16, two16 in H.
      replace (((256 + x) mod 65536 / 256) mod 16) with 1 in H by lia. replace ((256 + x) mod 65536 mod 256) with x in H by lia. exact H.
    + apply wrote_kwrote; [exact Hw| |apply wrote_ok; [exact Hw|reflexivity]]. cbn [no_short_text].
      rewrite !lenZ_cons. pose proof (lenZ_nonneg s0). lia.
  - destruct s0 as [|x [|y s0]]; [|discriminate|]; injection Hk as <-.
    + left. exists 80, 0. split; [reflexivity|]. split; [reflexivity|]. exact repr_int0.
    + apply wrote_kwrote; [exact Hw| |apply wrote_ok; [exact Hw|reflexivity]]. cbn [no_short_text].
      rewrite !lenZ_cons. pose proof (lenZ_nonneg s0). lia.
  - exact (IH w Hw Hk).
Qed.
Lemma kept_size v : wf_enc v -> kept v <> None -> 0 <= fleece_size v.
Proof.
  induction v as [ty z|b|b|b| | |s0|s0| |v IH|s0|d n]; cbn [wf_enc kept fleece_size]; intros Hw Hk; try lia; try contradiction;
    try apply fleece_size_nonneg_str.
  - destruct (kept_int ty z) as [m|] eqn:E; [|contradiction]. clear Hk.
    assert (Hi : 0 <= i64_fleece_size z).
    { unfold i64_fleece_size. destruct (i64_is_short z) eqn:E2; [lia|]. unfold i64_is_short in E2. lia. }
    assert (Hu : (z <=? 2047 = true \/ 0 < 8 - (ctz64 z + 7) / 8) -> 0 <= u64_fleece_size z).
    { intros H. unfold u64_fleece_size. destruct (z <=? 2047); [lia|]. destruct H; [discriminate|lia]. }
    destruct ty; cbn [kept_int fleece_size] in *; try lia; try exact Hi; apply Hu;
      (destruct (z <=? 2047); [left; reflexivity|right; cbv zeta in E; destruct (8 - (ctz64 z + 7) / 8 <=? 0) eqn:E3; [discriminate|lia]]).
Qed.

(* ---------- one call ---------- *)

Lemma stack_pot_ne st : stack_pot (map nc st) = stack_pot st.
Proof.
  induction st as [|cc st IH]; [reflexivity|]. cbn [map stack_pot]. rewrite IH.
  destruct cc as [vs|vs [k|]]; cbn [nc coll_slots]; unfold lenZ; rewrite map_length; reflexivity.
Qed.
Lemma pot_ne e : pot (ne e) = pot e.
Proof. unfold pot, ne. cbn [set_stack en_out en_stack]. rewrite stack_pot_ne. reflexivity. Qed.
Lemma out_pot e : lenZ (en_out e) <= pot e.
Proof. unfold pot. pose proof (stack_pot_nonneg (en_stack e)). lia. Qed.

Lemma push_key_ne e k : push_key (ne e) k = (ne (fst (push_key e k)), snd (push_key e k)).
Proof.
  unfold push_key, ne. cbn [set_stack en_stack]. destruct e as [D sk st cl]. cbn [en_out en_sk en_stack en_closed].
  destruct st as [|[vs|vs [k2|]] st]; reflexivity.
Qed.
Lemma push_value_ne e s : push_value (ne e) (ns s) = (ne (fst (push_value e s)), snd (push_value e s)).
Proof.
  unfold push_value, ne. cbn [set_stack en_stack]. destruct e as [D sk st cl]. cbn [en_out en_sk en_stack en_closed].
  destruct st as [|[vs|vs [k2|]] st]; cbn [map nc fst snd set_stack en_out en_sk en_stack en_closed]; rewrite ?map_app; reflexivity.
Qed.
Lemma write_key_ne c e k : 2 <= lenZ k -> write_key c (ne e) k = ore (write_key c e k).
Proof.
  intros Hk. unfold write_key.
  assert (Hp : forall e0, write_key_pointer c (ne e0) k = ore (write_key_pointer c e0 k)).
  { intros e0. unfold write_key_pointer. rewrite (enc_write_ne c c e0 _ _ _ eq_refl).
    destruct (enc_write c e0 _ _ _) as [[e1 o1]| | |]; try reflexivity. cbn [bind fst snd]. rewrite push_key_ne. reflexivity. }
  destruct (to_sized_value (EStr k)) as [s|] eqn:Es; [exfalso; eapply bytes_sized_long; [exact Hk|exact Es]|].
  unfold write_key_long. change (en_sk (ne e)) with (en_sk e). change (en_stack (ne e)) with (map nc (en_stack e)).
  destruct (en_sk e) as [t|]; [|apply Hp].
  destruct (en_stack e) as [|[vs|vs nk] st]; cbn [map nc]; try reflexivity.
  destruct (encode_and_insert (c_ua c) t k) as [t' [i|]]; change (set_sk (ne e) (Some t')) with (ne (set_sk e (Some t'))).
  - rewrite push_key_ne. reflexivity.
  - apply Hp.
Qed.
Lemma top_waits_ne st : top_waits_for_key (map nc st) = top_waits_for_key st.
Proof. destruct st as [|[vs|vs [k|]] st]; reflexivity. Qed.

(** The result of a call against that of the call that would have described what is left. *)
Definition kres (c : cfg) (e : enc) (b : bstate) (o : op) : Prop :=
  match b_step b (kept_op o) with
  | Ok b' => exists e', enc_step c e o = Ret (e', Ok tt) /\ inv (ne e') b' /\ clean 0 (ne e') /\ pot e' <= pot e + op_size o
  | Err er => exists e', enc_step c e o = Ret (e', Err er) /\ inv (ne e') b /\ clean 0 (ne e') /\ pot e' <= pot e + op_size o
  end.

Lemma kres_sim c c2 e b o :
  kept_op o = o -> op_args_wf o -> plain_op o = true ->
  enc_step c2 (ne e) o = ore (enc_step c e o) -> step_rel c2 (ne e) b o ->
  clean 0 (ne e) -> lenZ (en_out e) <= MAX_WIDE -> kres c e b o.
Proof.
  intros Hk Ha Hpl Hs Hr Hc Hl. unfold kres. rewrite Hk. unfold step_rel in Hr.
  assert (Hgo : forall e2 r, enc_step c2 (ne e) o = Ret (e2, r) -> exists e', enc_step c e o = Ret (e', r) /\ ne e' = e2 /\ clean 0 (ne e')).
  { intros e2 r H. pose proof (step_clean 0 c2 (ne e) o e2 r H Ha Hpl ltac:(lia) Hc Hl) as Hcl. rewrite Hs in H. unfold ore in H.
    destruct (enc_step c e o) as [[e' r']| | |]; try discriminate. cbn [bind fst snd] in H. injection H as <- <-. eauto. }
  destruct (b_step b o) as [b'|er]; destruct Hr as (e2 & H1 & H2 & H3); destruct (Hgo _ _ H1) as (e' & H4 & <- & H5);
    rewrite !pot_ne in H3; eauto 6.
Qed.

Lemma push_inv e b s w :
  inv e b -> srep (en_out e) (en_sk e) s (tree_of w) ->
  match b_step b (OpValue w) with
  | Ok b' => exists e', push_value e s = (e', Ok tt) /\ inv e' b' /\ pot e' <= pot e + 4
  | Err er => push_value e s = (e, Err er)
  end.
Proof.
  intros [Hev Hst Hpd Hrt] Hsr. cbn [b_step]. unfold push_value, pot.
  destruct e as [D sk st cl]; destruct b as [fr rt]; cbn [en_out en_sk en_stack en_closed b_stack b_root] in *.
  destruct Hst as [|cc f st fr Hc Hst]; cbn [tl] in *; [reflexivity|].
  assert (Hr : rt = None) by (destruct rt; [destruct Hrt; discriminate|reflexivity]). subst rt.
  unfold set_stack; cbn [en_out en_sk en_stack en_closed].
  destruct Hc as [vs ts Hvs|vs kts Hvs|vs kts dk kk k Hvs Hk]; cbn [add_child];
    [eexists; split; [reflexivity|]|reflexivity|eexists; split; [reflexivity|]]; cbn [en_out en_stack stack_pot coll_slots] in *.
  - split; [|rewrite lenZ_app, lenZ_cons; change (lenZ (@nil sized)) with 0; lia].
    constructor; cbn [en_out en_sk en_stack en_closed tl b_stack b_root]; auto.
    constructor; [|exact Hst]. constructor. apply Forall2_app; auto.
  - split; [|rewrite lenZ_app, lenZ_cons; change (lenZ (@nil delem)) with 0; lia].
    constructor; cbn [en_out en_sk en_stack en_closed tl b_stack b_root]; auto.
    constructor; [|exact Hst]. constructor. apply Forall2_app; auto. constructor; [|constructor].
    split; cbn [de_key de_val fst snd]; eauto.
Qed.

Lemma inv_grow e b X : inv e b -> en_stack e <> [] -> lenZ X mod 2 = 0 -> inv (set_out e (en_out e ++ X)) b.
Proof.
  intros [Hev Hst Hpd Hrt] Hne HX. constructor; cbn [set_out en_out en_sk en_stack en_closed]; auto.
  - rewrite lenZ_app. lia.
  - apply stack_mono. exact Hst.
  - destruct (b_root b); [destruct Hrt; contradiction|exact Hrt].
Qed.

Lemma write_kwrote c e v bs :
  write_to (c_dbg c) v (fleece_size v) false = Ret (Some bs) -> lenZ bs = fleece_size v ->
  lenZ (en_out e) mod 2 = 0 -> lenZ (en_out e) <= MAX_WIDE ->
  exists X, enc_write c e v false false = Ret (set_out e (en_out e ++ X), lenZ (en_out e)) /\
    holds (en_out e ++ X) (lenZ (en_out e)) bs /\ lenZ X mod 2 = 0 /\ 0 <= lenZ X <= fleece_size v + 1.
Proof.
  intros Hwr Hl Hev Hmx. exists (pad_even bs). unfold enc_write. cbn [andb]. rewrite Hwr; cbn [bind].
  rewrite Hl, Z.eqb_refl. rewrite pad_even_app by exact Hev. pose proof (lenZ_nonneg (en_out e)).
  rewrite wrap_u32_id by (unfold two32, MAX_WIDE in *; lia).
  split; [reflexivity|]. pose proof (pad_even_len bs) as Hpl. pose proof (lenZ_nonneg bs).
  split; [|lia]. unfold pad_even. destruct (lenZ bs mod 2 =? 0).
  - apply holds_end.
  - apply holds_end'. reflexivity.
Qed.

Lemma kres_value c e b v :
  inv (ne e) b -> clean 0 (ne e) -> wf_enc v -> kept v <> None -> pot e + op_size (OpValue v) <= MAX_WIDE ->
  kres c e b (OpValue v).
Proof.
  intros Hi Hc Hw Hk Hpot. pose proof (kept_size v Hw Hk) as Hfs. unfold kres. cbn [kept_op op_size enc_step] in *.
  destruct (kept v) as [w|] eqn:Ek; [|contradiction]. clear Hk.
  pose proof (kwrote_kept v w Hw Ek) as Hkw. unfold write_value.
  pose proof (out_pot e) as Hop. pose proof (lenZ_nonneg (en_out e)) as H0.
  assert (Hpush : forall e1 s, inv (ne e1) b -> clean 0 (ne e1) -> srep (en_out e1) (en_sk e1) (ns s) (tree_of w) -> sclean 0 (ns s) ->
     pot e1 <= pot e + fleece_size v + 1 ->
     match b_step b (OpValue w) with
     | Ok b' => exists e', Ret (push_value e1 s) = Ret (e', Ok tt) /\ inv (ne e') b' /\ clean 0 (ne e') /\ pot e' <= pot e + (fleece_size v + 1 + 4)
     | Err er => exists e', Ret (push_value e1 s) = Ret (e', Err er) /\ inv (ne e') b /\ clean 0 (ne e') /\ pot e' <= pot e + (fleece_size v + 1 + 4)
     end).
  { intros e1 s Hi1 Hc1 Hsr Hcl Hp1. pose proof (push_inv (ne e1) b (ns s) w Hi1 Hsr) as H.
    pose proof (push_value_ne e1 s) as Hn. destruct (push_value e1 s) as [e' r] eqn:Ep. cbn [fst snd] in Hn.
    pose proof (push_value_clean 0 _ _ _ _ Hn Hc1 Hcl) as Hcl'.
    destruct (b_step b (OpValue w)) as [b'|er].
    - destruct H as (e2 & H1 & H2 & H3). rewrite Hn in H1. injection H1 as <- ->. rewrite !pot_ne in H3.
      exists e'. split; [reflexivity|]. split; [exact H2|]. split; [exact Hcl'|lia].
    - rewrite Hn in H. assert (H1 : ne e' = ne e1) by congruence. assert (r = Err er) by congruence. subst r. exists e'. split; [reflexivity|].
      assert (Hpe : pot e' = pot e1) by (rewrite <- (pot_ne e'), H1, pot_ne; reflexivity). rewrite H1 in *.
      split; [exact Hi1|]. split; [exact Hc1|]. lia. }
  destruct (en_stack e) as [|cc st] eqn:Est.
  - pose proof (i_stack _ _ Hi) as Hst. unfold ne in Hst. cbn [set_stack en_stack] in Hst. rewrite Est in Hst. inversion Hst as [E|].
    cbn [b_step]. rewrite <- H. exists e. split; [reflexivity|]. split; [exact Hi|]. split; [exact Hc|]. lia.
  - destruct Hkw as [(b0 & b1 & Es & Hp & Hr)|[Es Hwr]]; rewrite Es.
    + assert (Hns : ns [b0; b1; 0; 0] = [Z.land b0 0xBF; b1; 0; 0]) by (unfold ns; rewrite Hp; reflexivity).
      apply Hpush; [exact Hi|exact Hc|rewrite Hns; apply sr_inline; exact Hr| |lia].
      unfold sclean. rewrite is_ptr_ns, Hp, Hns. cbn [nth]. rewrite <- Z.land_assoc. change (Z.land 191 64) with 0. apply Z.land_0_r.
    + destruct (Hwr (c_dbg c)) as (bs & Hw1 & Hw2 & Hr).
      destruct (write_kwrote c e v bs Hw1 Hw2) as (X & Ew & Hh & HX & HXl); [exact (i_even _ _ Hi)|lia|].
      rewrite Ew; cbn [bind]. rewrite new_pointer_ok by lia.
      assert (Hnp : ns (mkptr (lenZ (en_out e))) = mkptr (lenZ (en_out e))) by (apply ns_ptr; apply is_ptr_mkptr; lia).
      apply Hpush.
      * change (ne (set_out e (en_out e ++ X))) with (set_out (ne e) (en_out (ne e) ++ X)). apply inv_grow; [exact Hi| |exact HX].
        unfold ne. cbn [set_stack en_stack]. rewrite Est. discriminate.
      * destruct Hc as [Hc1 Hc2]. split; [exact Hc1|]. apply lenZ_nonneg.
      * rewrite Hnp. cbn [set_out en_out en_sk]. eapply sr_ptr; [apply ts_refl| |lia]. apply st_scalar; eauto. exact (i_even _ _ Hi).
      * rewrite Hnp. unfold sclean. rewrite is_ptr_mkptr, pointer_offset_mkptr by lia. lia.
      * unfold pot. cbn [set_out en_out en_stack]. rewrite lenZ_app. lia.
Qed.

Lemma delem_dec : forall a b : list delem, {a = b} + {a <> b}.
Proof. repeat decide equality. Qed.

(** A sort that commutes with clearing the bit, for one list. *)
Definition sort2 (c : cfg) (vs : list delem) : cfg :=
  mk_cfg (c_dbg c) (c_ua c) (fun l => if delem_dec l (map nd vs) then map nd (c_sort c vs) else c_sort c l).
Lemma StronglySorted_nd (l : list delem) :
  StronglySorted (fun a b => enc_key_cmp (de_key a) (de_key b) <> Gt) l ->
  StronglySorted (fun a b => enc_key_cmp (de_key a) (de_key b) <> Gt) (map nd l).
Proof.
  induction 1 as [|d l _ IH HF]; cbn [map]; constructor; [exact IH|]. rewrite Forall_map. cbn [nd de_key]. exact HF.
Qed.
Lemma sort2_ok c vs : sort_ok (c_sort c) -> sort_ok (c_sort (sort2 c vs)).
Proof.
  intros Hs l. cbn [sort2 c_sort]. destruct (delem_dec l (map nd vs)) as [->|_]; [|apply Hs].
  destruct (Hs vs) as [H1 H2]. split; [apply Permutation_map; exact H1|apply StronglySorted_nd; exact H2].
Qed.
Lemma sort2_at c vs : c_sort (sort2 c vs) (map nd vs) = map nd (c_sort c vs).
Proof. cbn [sort2 c_sort]. destruct (delem_dec (map nd vs) (map nd vs)) as [_|H]; [reflexivity|contradiction]. Qed.

Lemma top_array_narrow c e b vs st : inv (ne e) b -> pot e <= MAX_NARROW -> en_stack e = CArr vs :: st ->
  array_should_be_wide (c_dbg c) (lenZ (en_out e)) vs = Ret false.
Proof.
  intros Hi Hp Est. rewrite <- array_wide_ns. pose proof (out_pot e). pose proof (i_stack _ _ Hi) as Hst.
  unfold ne in Hst. cbn [set_stack en_stack en_out en_sk] in Hst. rewrite Est in Hst. cbn [map nc] in Hst.
  inversion Hst as [|? ? ? ? Hc _]; subst. inversion Hc as [? ts Hvs| |]; subst. destruct (Forall2_swf _ _ _ _ Hvs) as [Hswf _].
  apply array_narrow; [lia|exact Hswf].
Qed.
Lemma top_dict_narrow c e b vs nk st : inv (ne e) b -> pot e <= MAX_NARROW -> en_stack e = CDict vs nk :: st ->
  dict_should_be_wide (c_dbg c) (lenZ (en_out e)) (lenZ (en_out e)) vs = Ret false.
Proof.
  intros Hi Hp Est. rewrite <- dict_wide_nd. pose proof (out_pot e). pose proof (i_stack _ _ Hi) as Hst.
  unfold ne in Hst. cbn [set_stack en_stack en_out en_sk] in Hst. rewrite Est in Hst. cbn [map nc] in Hst.
  inversion Hst as [|? ? ? ? Hc _]; subst.
  assert (Hvs : exists kts, Forall2 (erep (en_out e) (en_sk e)) (map nd vs) kts) by (inversion Hc; subst; eauto).
  destruct Hvs as [kts Hvs]. apply dict_narrow; [lia|lia|].
  revert Hvs. generalize (map nd vs). intros l Hvs. clear - Hvs. induction Hvs as [|d kt l m [[kk Hk] Hs] H IH]; [constructor|].
  constructor; [|exact IH]. split; [eapply krep_kgood; eauto|]. apply srep_swf in Hs as [Hs _]. exact Hs.
Qed.

Lemma MN_MW : MAX_NARROW <= MAX_WIDE.
Proof. unfold MAX_NARROW, MAX_WIDE. lia. Qed.

Lemma kstep c e b o :
  sort_ok (c_sort c) -> inv (ne e) b -> clean 0 (ne e) -> small_op o -> polite_op b o ->
  match o with OpKey k => en_sk e <> None -> lenZ k <> 16 | OpSetSharedKeys _ => en_sk e = None | _ => True end ->
  pot e + op_size o <= MAX_NARROW -> kres c e b o.
Proof.
  intros Hs Hi Hc Hg Hp Hk Hn. pose proof MN_MW as Hm. pose proof (out_pot e) as Hop.
  assert (Hfit : forall c2, sort_ok (c_sort c2) -> pot e <= MAX_NARROW -> top_fits c2 (ne e) = true).
  { intros c2 Hs2 Hpe. eapply clean_fits; [exact Hs2|exact Hi|exact Hc|rewrite pot_ne; lia|rewrite pot_ne; lia]. }
  destruct o as [k|v|n| | | |t]; cbn [small_op polite_op op_size] in *.
  - destruct Hg as [Hw Hl]. pose proof (fleece_size_nonneg_str k). apply (kres_sim c c); auto; try lia.
    + cbn [plain_op]. lia.
    + cbn [enc_step]. apply write_key_ne. exact Hl.
    + apply step_ok; auto; [|rewrite pot_ne; cbn [op_size]; lia]. cbn [call_ok]. split; [exact Hw|]. split; [exact Hk|]. split; [exact Hp|].
      intros _. exact I.
  - apply kres_value; auto; try tauto. cbn [op_size]. lia.
  - apply (kres_sim c c); auto; try exact I; try lia.
    + cbn [enc_step]. unfold begin_array. change (en_stack (ne e)) with (map nc (en_stack e)). rewrite top_waits_ne.
      change (en_closed (ne e)) with (en_closed e).
      destruct (en_closed e), (top_waits_for_key (en_stack e)), (two63 <=? n * 4); reflexivity.
    + apply step_ok; auto. rewrite pot_ne. cbn [op_size]. lia.
  - apply (kres_sim c c); auto; try exact I; try lia.
    + cbn [enc_step]. apply end_array_ne; [reflexivity|]. intros vs st Est. eapply top_array_narrow; eauto. lia.
    + apply step_ok; auto; [|rewrite pot_ne; cbn [op_size]; lia]. cbn [call_ok].
      destruct (b_stack b) as [|[l|l [k2|]] fr]; auto. apply Hfit; [exact Hs|lia].
  - apply (kres_sim c c); auto; try exact I; try lia.
    + cbn [enc_step]. unfold begin_dict. change (en_stack (ne e)) with (map nc (en_stack e)). rewrite top_waits_ne.
      change (en_closed (ne e)) with (en_closed e).
      destruct (en_closed e), (top_waits_for_key (en_stack e)); reflexivity.
    + apply step_ok; auto. rewrite pot_ne. cbn [op_size]. lia.
  - set (vs0 := match en_stack e with CDict vs _ :: _ => vs | _ => [] end).
    apply (kres_sim c (sort2 c vs0)); auto; try exact I; try lia.
    + cbn [enc_step]. apply end_dict_ne; [reflexivity|]. intros vs st Est. split; [eapply top_dict_narrow; eauto; lia|].
      unfold vs0. rewrite Est. apply sort2_at.
    + apply step_ok; auto; [apply sort2_ok; exact Hs| |rewrite pot_ne; cbn [op_size]; lia]. cbn [call_ok].
      destruct (b_stack b) as [|[l|l [k2|]] fr]; auto. apply Hfit; [apply sort2_ok; exact Hs|lia].
  - apply (kres_sim c c); auto; try exact I; try lia.
    apply step_ok; auto; [|rewrite pot_ne; cbn [op_size]; lia]. cbn [call_ok]. change (en_sk (ne e)) with (en_sk e). rewrite Hk. exact I.
Qed.

(* ---------- runs ---------- *)

Lemma small_op_size o : small_op o -> 0 <= op_size o.
Proof.
  destruct o; cbn [small_op]; try (cbn [op_size]; lia); intros H.
  - apply op_size_nonneg_key.
  - cbn [op_size]. destruct H as (H1 & H2). pose proof (kept_size _ H1 H2). lia.
Qed.
Lemma small_ops_size ops : Forall small_op ops -> 0 <= ops_size ops.
Proof.
  induction 1 as [|o ops H _ IH]; [cbn; lia|]. change (ops_size (o :: ops)) with (op_size o + ops_size ops).
  pose proof (small_op_size o H). lia.
Qed.

Lemma krun c : sort_ok (c_sort c) -> forall ops e b,
  inv (ne e) b -> clean 0 (ne e) -> Forall small_op ops -> polite b (map kept_op ops) -> keys_ok (has_sk e) ops ->
  pot e + ops_size ops <= MAX_NARROW ->
  exists e', enc_run c e ops = Ret (e', snd (b_run b (map kept_op ops))) /\ inv (ne e') (fst (b_run b (map kept_op ops))) /\
    clean 0 (ne e') /\ pot e' <= pot e + ops_size ops.
Proof.
  intros Hs. induction ops as [|o ops IH]; intros e b Hi Hc Hg Hp Hk Hn; cbn [map].
  { exists e. cbn. split; [reflexivity|]. split; [exact Hi|]. split; [exact Hc|lia]. }
  inversion Hg as [|? ? Hg1 Hg2]; subst. cbn [polite map] in Hp. destruct Hp as [Hp1 Hp2].
  change (ops_size (o :: ops)) with (op_size o + ops_size ops) in *. pose proof (small_ops_size ops Hg2) as Hn2.
  assert (Hst : kres c e b o).
  { apply kstep; auto; [| |lia].
    - destruct o; exact Hp1.
    - destruct o as [k|v|n| | | |t]; cbn [keys_ok] in Hk; auto.
      + intros Hne. apply (proj1 Hk). unfold has_sk. destruct (en_sk e); congruence.
      + unfold has_sk in Hk. destruct (en_sk e); [destruct Hk; discriminate|reflexivity]. }
  unfold kres in Hst.
  assert (Hk' : forall e' r, enc_step c e o = Ret (e', r) -> keys_ok (has_sk e') ops).
  { intros e' r H. apply step_ext in H as (_ & Hsk & _). unfold has_sk in *.
    destruct o as [k|v|n| | | |t]; cbn [keys_ok] in Hk;
      try (replace (match en_sk e' with Some _ => true | None => false end)
            with (match en_sk e with Some _ => true | None => false end);
           [tauto|]; destruct (en_sk e), (en_sk e'); try reflexivity; exfalso;
           [assert (Hx : @Some shared_keys s = None) by (apply Hsk; reflexivity); discriminate Hx
           |assert (Hx : @Some shared_keys s = None) by (apply Hsk; split; [reflexivity|intros; discriminate]); discriminate Hx]).
    destruct (en_sk e'); [tauto|]. exfalso. apply (proj2 (proj1 Hsk eq_refl) t). reflexivity. }
  cbn [enc_run b_run].
  destruct (b_step b (kept_op o)) as [b'|er]; destruct Hst as (e1 & E1 & Hi1 & Hc1 & Hp1');
    (destruct (IH e1 _ Hi1 Hc1 Hg2 Hp2 (Hk' _ _ E1) ltac:(lia)) as (e2 & H2 & Hi2 & Hc2 & Hp2'));
    exists e2; rewrite E1; cbn [bind fst snd]; rewrite H2; cbn [bind fst snd];
    (split; [reflexivity|]; split; [exact Hi2|]; split; [exact Hc2|lia]).
Qed.

(* ---------- finish ---------- *)

Lemma kend c : sort_ok (c_sort c) -> forall fuel e b,
  (length (en_stack e) < fuel)%nat -> inv (ne e) b -> clean 0 (ne e) -> pot e <= MAX_NARROW ->
  exists e', enc_end fuel c e = Ret e' /\ inv (ne e') (mk_b [] (b_finish b)) /\ pot e' <= pot e.
Proof.
  intros Hs. pose proof MN_MW as Hm. induction fuel as [|fuel IH]; intros e b Hf Hi Hc Hpot; [lia|].
  cbn [enc_end]. pose proof (i_stack _ _ Hi) as Hst. change (en_stack (ne e)) with (map nc (en_stack e)) in Hst.
  pose proof (out_pot e) as Hop.
  destruct (en_stack e) as [|[vs|vs nk] st] eqn:Est.
  - exists e. split; [reflexivity|]. split; [|lia]. cbn [map] in Hst. inversion Hst as [E|]; subst. unfold b_finish. rewrite <- H.
    destruct Hi as [Hev _ Hpd Hrt]. constructor; cbn [b_stack b_root]; auto.
    change (en_stack (ne e)) with (map nc (en_stack e)). rewrite Est. constructor.
  - cbn [map nc] in Hst. inversion Hst as [|? f ? fr Hcr Hst' E1 E2]; subst. inversion Hcr as [? l| |]; subst.
    assert (Hst2 : en_stack (ne e) = CArr (map ns vs) :: map nc st) by (unfold ne; cbn [set_stack en_stack]; rewrite Est; reflexivity).
    assert (Hr : b_root b = None) by (eapply inv_root_none; eauto).
    assert (Hfit : top_fits c (ne e) = true) by (eapply clean_fits; [exact Hs|exact Hi|exact Hc|rewrite pot_ne; lia|rewrite pot_ne; lia]).
    destruct (close_array c (ne e) b l fr Hi (eq_sym E2) Hfit ltac:(rewrite pot_ne; lia)) as (e1 & H1 & H2 & H3 & H4).
    assert (Hcl : clean 0 e1) by (eapply (step_clean 0 c (ne e) OpEndArray); eauto; try exact I; try lia; change (en_out (ne e)) with (en_out e); lia).
    rewrite (end_array_ne c c e eq_refl) in H1 by (intros vs1 st1 Est1; eapply top_array_narrow; eauto).
    unfold ore in H1. destruct (end_array c e) as [[e1' r1]| | |]; try discriminate. cbn [bind fst snd] in *. injection H1 as <- ->.
    rewrite Hst2 in H4. change (en_stack (ne e1')) with (map nc (en_stack e1')) in H4. cbn [length] in *. rewrite !map_length in H4.
    rewrite !pot_ne in H3.
    destruct (IH e1' (b_pop b) ltac:(lia) H2 Hcl ltac:(lia)) as (e2 & H5 & H6 & H7).
    exists e2. split; [exact H5|]. split; [|lia]. rewrite (b_finish_pop b _ _ (eq_sym E2) Hr) in H6. exact H6.
  - assert (Hst2 : en_stack (ne e) = CDict (map nd vs) nk :: map nc st) by (unfold ne; cbn [set_stack en_stack]; rewrite Est; reflexivity).
    destruct (drop_pending (ne e) b _ nk _ Hi Hst2) as (l & fr & pk & Eb & Hr & Hi0 & Hp0). rewrite pot_ne in Hp0.
    set (e0 := set_stack e (CDict vs None :: st)) in *.
    change (set_stack (ne e) (CDict (map nd vs) None :: map nc st)) with (ne e0) in Hi0, Hp0. rewrite pot_ne in Hp0.
    assert (Hc0 : clean 0 (ne e0)).
    { destruct Hc as [Hc1 Hc2]. rewrite Hst2 in Hc1. inversion Hc1 as [|? ? Hca Hcb]; subst. split; [|exact Hc2].
      unfold e0, ne. cbn [set_stack en_stack map nc]. constructor; [|assumption]. cbn [cclean] in *. tauto. }
    pose proof (sort2_ok c vs Hs) as Hs2.
    assert (Hfit : top_fits (sort2 c vs) (ne e0) = true)
      by (eapply clean_fits; [exact Hs2|exact Hi0|exact Hc0|rewrite pot_ne; lia|rewrite pot_ne; lia]).
    destruct (close_dict (sort2 c vs) (ne e0) _ l fr Hs2 Hi0 eq_refl Hfit ltac:(rewrite pot_ne; lia)) as (e1 & H1 & H2 & H3 & H4).
    assert (Hcl : clean 0 e1) by (eapply (step_clean 0 (sort2 c vs) (ne e0) OpEndDict); eauto; try exact I; try lia; change (en_out (ne e0)) with (en_out e); lia).
    rewrite (end_dict_ne c (sort2 c vs) e0 eq_refl) in H1.
    2:{ intros vs1 st1 Est1. injection Est1 as <- <-. split; [eapply (top_dict_narrow c e0); eauto; [lia|reflexivity]|apply sort2_at]. }
    unfold ore in H1. destruct (end_dict c e0) as [[e1' r1]| | |]; try discriminate. cbn [bind fst snd] in *. injection H1 as <- ->.
    change (en_stack (ne e0)) with (CDict (map nd vs) None :: map nc st) in H4.
    change (en_stack (ne e1')) with (map nc (en_stack e1')) in H4. cbn [length] in *. rewrite !map_length in H4.
    rewrite !pot_ne in H3.
    destruct (IH e1' _ ltac:(lia) H2 Hcl ltac:(lia)) as (e2 & H5 & H6 & H7).
    exists e2. split; [exact H5|]. split; [|lia].
    rewrite (b_finish_pop (mk_b (FDict l None :: fr) None) (FDict l None) fr eq_refl eq_refl) in H6. unfold b_finish in *. rewrite Eb. cbn [b_stack] in H6.
    exact H6.
Qed.

(* ---------- a whole document ---------- *)

Lemma kept_document c prefix ops :
  sort_ok (c_sort c) -> lenZ prefix mod 2 = 0 ->
  Forall small_op ops -> keys_ok false ops -> polite b_init (map kept_op ops) ->
  lenZ prefix + ops_size ops <= MAX_NARROW ->
  exists e' D, enc_run c (enc_new_to_vec prefix) ops = Ret (e', snd (b_run b_init (map kept_op ops))) /\
    finish c e' = Ret (prefix ++ D) /\
    forall t, b_finish (fst (b_run b_init (map kept_op ops))) = Some t ->
    forall dbg base, addressable base (prefix ++ D) -> decodes_to dbg base (prefix ++ D) (en_sk e') t.
Proof.
  intros Hs Hev Hg Hk Hp Hn. pose proof MN_MW as Hm.
  assert (Hp0 : pot (enc_new_to_vec prefix) = lenZ prefix) by (unfold pot; cbn [enc_new_to_vec en_out en_stack stack_pot fold_right]; lia).
  assert (Hne : ne (enc_new_to_vec prefix) = enc_new_to_vec prefix) by reflexivity.
  destruct (krun c Hs ops (enc_new_to_vec prefix) b_init) as (e' & Er & Hi & Hc & Hpot); auto.
  { rewrite Hne. apply inv_init. exact Hev. }
  { rewrite Hne. split; [constructor|]. apply lenZ_nonneg. }
  { lia. }
  destruct (kend c Hs (S (length (en_stack e'))) e' _ ltac:(lia) Hi Hc ltac:(lia)) as (e2 & Ee & Hi2 & Hpot2).
  pose proof (run_ext _ _ _ _ _ Er) as [X HX]. cbn [enc_new_to_vec en_out] in HX.
  pose proof (enc_end_ext _ _ _ _ Ee) as [[Y HY] Hsk].
  assert (Eo : en_out e2 = prefix ++ (X ++ Y)) by (rewrite HY, HX, app_assoc; reflexivity).
  exists e', (X ++ Y). split; [exact Er|]. unfold finish. rewrite Ee. cbn [bind]. rewrite Eo. split; [reflexivity|].
  intros t Ht dbg base [Hb1 Hb2]. pose proof (i_root _ _ Hi2) as Hrt. cbn [b_root] in Hrt. rewrite Ht in Hrt. destruct Hrt as (_ & _ & Hrt).
  change (en_out (ne e2)) with (en_out e2) in Hrt. change (en_sk (ne e2)) with (en_sk e2) in Hrt. rewrite Eo, Hsk in Hrt.
  apply rooted_read in Hrt as (v & t' & Hts & Hrd).
  pose proof (out_pot e2) as Hop. rewrite Eo in Hop.
  assert (Hok : env_ok (mk_env dbg base (prefix ++ X ++ Y) (en_sk e'))).
  { unfold env_ok; cbn [e_base e_data]. split; [exact Hb1|]. split; [exact Hb2|]. unfold MAX_WIDE, two63 in *. lia. }
  destruct (Hrd (mk_env dbg base (prefix ++ X ++ Y) (en_sk e')) eq_refl Hok) as (H2 & H3 & H4).
  exists v, t'. split; [exact H2|]. split; [exact H3|]. split; [|exact Hts]. apply read_vstored; assumption.
Qed.

(* ---------- the answers do not depend on the values ---------- *)

Definition fshape (f g : frame) : Prop :=
  match f, g with
  | FArr _, FArr _ => True
  | FDict _ p, FDict _ q => p = q
  | _, _ => False
  end.
Definition bshape (a b : bstate) : Prop :=
  Forall2 fshape (b_stack a) (b_stack b) /\ (b_root a = None <-> b_root b = None).
Lemma bshape_refl b : bshape b b.
Proof.
  split; [|tauto]. induction (b_stack b) as [|f st IH]; constructor; [|exact IH]. destruct f; cbn; auto.
Qed.
Lemma add_child_shape f g t u : fshape f g -> fshape (add_child f t) (add_child g u).
Proof. destruct f as [l|l [k|]], g as [m|m [q|]]; cbn; intros H; auto; discriminate. Qed.
Lemma pop_shape a b : bshape a b -> bshape (b_pop a) (b_pop b).
Proof.
  intros H. pose proof H as [Hst Hr]. unfold b_pop.
  destruct (b_stack a) as [|f st] eqn:Ea, (b_stack b) as [|g st'] eqn:Eb; [exact H|inversion Hst|inversion Hst|].
  inversion Hst as [|? ? ? ? Hf Hst']; subst.
  destruct Hst' as [|f2 g2 st st' Hf2 Hst']; (split; cbn [b_stack b_root]; [|]); auto.
  - split; discriminate.
  - constructor; [apply add_child_shape; exact Hf2|exact Hst'].
Qed.
Lemma step_shape a b o : bshape a b ->
  match b_step a o, b_step b (kept_op o) with
  | Ok a', Ok b' => bshape a' b'
  | Err x, Err y => x = y
  | _, _ => False
  end.
Proof.
  intros H. pose proof H as [Hst Hr]. pose proof (pop_shape a b H) as Hpop.
  assert (Hbegin : forall f, (f = FArr [] \/ f = FDict [] None) ->
    match b_begin a f, b_begin b f with Ok a', Ok b' => bshape a' b' | Err x, Err y => x = y | _, _ => False end).
  { intros f Hf. unfold b_begin.
    assert (Hff : fshape f f) by (destruct Hf as [-> | ->]; cbn; auto).
    destruct (b_root a) eqn:Ea, (b_root b) eqn:Eb;
      [reflexivity|destruct Hr as [_ Hr]; specialize (Hr eq_refl); discriminate|destruct Hr as [Hr _]; specialize (Hr eq_refl); discriminate|].
    destruct Hst as [|f1 g1 st st' Hf1 Hst']; [split; cbn [b_stack b_root]; [constructor; [exact Hff|constructor]|tauto]|].
    destruct f1 as [l|l [k|]], g1 as [m|m [q|]]; cbn in Hf1; try contradiction; try discriminate; auto;
      (split; cbn [b_stack b_root]; [constructor; [exact Hff|constructor; [cbn; auto|exact Hst']]|tauto]). }
  destruct o as [k|v|n| | | |t]; cbn [kept_op b_step]; [| |apply Hbegin; auto| |apply Hbegin; auto| |exact H].
  - destruct Hst as [|f1 g1 st st' Hf1 Hst']; [reflexivity|].
    destruct f1 as [l|l [k1|]], g1 as [m|m [q|]]; cbn in Hf1; try contradiction; try discriminate; auto.
    split; cbn [b_stack b_root]; [constructor; [cbn; auto|exact Hst']|exact Hr].
  - destruct Hst as [|f1 g1 st st' Hf1 Hst']; [reflexivity|].
    destruct f1 as [l|l [k1|]], g1 as [m|m [q|]]; cbn in Hf1; try contradiction; try discriminate; auto;
      (split; cbn [b_stack b_root]; [constructor; [cbn; auto|exact Hst']|exact Hr]).
  - destruct Hst as [|f1 g1 st st' Hf1 Hst']; [reflexivity|].
    destruct f1 as [l|l [k1|]], g1 as [m|m [q|]]; cbn in Hf1; try contradiction; try discriminate; auto.
  - destruct Hst as [|f1 g1 st st' Hf1 Hst']; [reflexivity|].
    destruct f1 as [l|l [k1|]], g1 as [m|m [q|]]; cbn in Hf1; try contradiction; try discriminate; auto.
Qed.
Lemma polite_op_shape a b o : bshape a b -> polite_op a o -> polite_op b (kept_op o).
Proof.
  intros [Hst Hr]. destruct o; cbn [kept_op polite_op]; auto; try (intros H; apply Hr; exact H).
  destruct Hst as [|f1 g1 st st' Hf1 Hst']; [auto|].
  destruct f1 as [l|l [k1|]], g1 as [m|m [q|]]; cbn in Hf1; try contradiction; try discriminate; auto.
Qed.
Lemma polite_shape : forall ops a b, bshape a b -> polite a ops -> polite b (map kept_op ops).
Proof.
  induction ops as [|o ops IH]; intros a b H; cbn [polite map]; [auto|]. intros [H1 H2].
  split; [eapply polite_op_shape; eauto|]. pose proof (step_shape a b o H) as Hs.
  destruct (b_step a o) as [a'|x], (b_step b (kept_op o)) as [b'|y]; try contradiction; eapply IH; eauto.
Qed.
Lemma answers_shape : forall ops a b, bshape a b -> snd (b_run a ops) = snd (b_run b (map kept_op ops)).
Proof.
  induction ops as [|o ops IH]; intros a b H; cbn [b_run map]; [reflexivity|]. pose proof (step_shape a b o H) as Hs.
  destruct (b_step a o) as [a'|x], (b_step b (kept_op o)) as [b'|y]; try contradiction; cbn [snd]; [f_equal; auto|].
  subst y. f_equal. auto.
Qed.

Theorem small_kept c prefix ops :
  sort_ok (c_sort c) -> lenZ prefix mod 2 = 0 ->
  Forall small_op ops -> keys_ok false ops -> polite b_init ops ->
  lenZ prefix + ops_size ops <= MAX_NARROW ->
  exists e' D, enc_run c (enc_new_to_vec prefix) ops = Ret (e', snd (b_run b_init ops)) /\
    finish c e' = Ret (prefix ++ D) /\
    forall t, b_finish (fst (b_run b_init (map kept_op ops))) = Some t ->
    forall dbg base, addressable base (prefix ++ D) -> decodes_to dbg base (prefix ++ D) (en_sk e') t.
Proof.
  intros Hs Hev Hg Hk Hp Hn. rewrite (answers_shape ops b_init b_init (bshape_refl _)).
  apply kept_document; auto. eapply polite_shape; [apply bshape_refl|exact Hp].
Qed.

(** Which values are left as they are. *)
Theorem kept_same v : wf_enc v ->
  ((exists w, kept v = Some w /\ tree_of w = tree_of v) <-> enc_ok v = true /\ no_short_text v = true).
Proof.
  induction v as [ty z|b|b|b| | |s0|s0| |v IH|s0|d n]; intros Hw; cbn [kept enc_ok no_short_text tree_of];
    try (split; [intros _; auto|intros _; eexists; split; reflexivity]).
  - assert (H : (exists w, option_map (EInt ty) (kept_int ty z) = Some w /\ tree_of w = TInt z) <-> kept_int ty z = Some z).
    { split.
      - intros (w & H1 & H2). destruct (kept_int ty z) as [m|]; [|discriminate]. injection H1 as <-. cbn [tree_of] in H2. congruence.
      - intros ->. exists (EInt ty z). split; reflexivity. }
    rewrite H. clear H. cbn [wf_enc] in Hw.
    assert (Hi : -9223372036854775808 <= z -> (((let low := (z + 32768) mod 65536 - 32768 in
      if (-2048 <=? low) && (low <=? 2047) then Some low else None) = Some z) <-> (-2048 <=? z) && (z <=? 2047) = true)).
    { intros _. cbv zeta. destruct ((-2048 <=? (z + 32768) mod 65536 - 32768) && ((z + 32768) mod 65536 - 32768 <=? 2047)) eqn:E.
      - split; [intros H; injection H as H; lia|intros H; f_equal; lia].
      - split; [discriminate|intros H; exfalso; lia]. }
    assert (Hu : 0 <= z -> ((if z <=? 2047 then Some z else let k := 8 - (ctz64 z + 7) / 8 in if k <=? 0 then None else Some (z mod 256 ^ k)) = Some z
        <-> (z <=? 2047) || (z <? 256 ^ (8 - (ctz64 z + 7) / 8)) = true)).
    { intros H0. destruct (z <=? 2047) eqn:E; [cbn; tauto|]. cbv zeta. cbn [orb].
      destruct (8 - (ctz64 z + 7) / 8 <=? 0) eqn:E2.
      - split; [discriminate|]. intros H. exfalso.
        destruct (Z.eq_dec (8 - (ctz64 z + 7) / 8) 0) as [E0|Hne]; [rewrite E0 in H; cbn in H; lia|].
        rewrite Z.pow_neg_r in H by lia. lia.
      - assert (Hp : 0 < 256 ^ (8 - (ctz64 z + 7) / 8)) by (apply Z.pow_pos_nonneg; lia).
        set (m := 256 ^ (8 - (ctz64 z + 7) / 8)) in *. pose proof (Z.mod_pos_bound z m Hp) as Hb.
        split; [intros H; injection H as H; lia|intros H; f_equal; apply Z.mod_small; lia]. }
    assert (Hx : forall A : Prop, A <-> A /\ true = true) by tauto.
    destruct ty; cbn [kept_int ity_min ity_max] in *; rewrite <- Hx; try (apply Hi; unfold two63, two32, two16 in *; lia); try (apply Hu; lia).
    + split; [reflexivity|intros _]. apply Hi; lia.
    + destruct (z <=? 2047) eqn:E; [tauto|lia].
    + destruct (z <=? 2047) eqn:E; [tauto|]. split; discriminate.
    + split; [reflexivity|intros _]. apply Hu; [lia|]. destruct (z <=? 2047) eqn:E; [reflexivity|]. cbn [orb].
      pose proof (u32_uint_ok z ltac:(lia)). lia.
  - destruct s0 as [|x [|y s0]].
    + split; [intros (w & H1 & H2); injection H1 as <-; discriminate|intros [_ H]; discriminate].
    + split; [intros (w & H1 & H2); injection H1 as <-; discriminate|intros [_ H]; discriminate].
    + split; [intros _; rewrite !lenZ_cons; pose proof (lenZ_nonneg s0); split; [reflexivity|lia]|intros _; eexists; split; reflexivity].
  - destruct s0 as [|x [|y s0]].
    + split; [intros (w & H1 & H2); injection H1 as <-; discriminate|intros [_ H]; discriminate].
    + split; [intros (w & H1 & H2); discriminate|intros [_ H]; discriminate].
    + split; [intros _; rewrite !lenZ_cons; pose proof (lenZ_nonneg s0); split; [reflexivity|lia]|intros _; eexists; split; reflexivity].
  - exact (IH Hw).
Qed.

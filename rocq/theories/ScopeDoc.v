(** Documents finished into a scope. *)
From Verif Require Import Prelude Lib Utf8 Float SharedKeys Decode Read Encodable Encoder BuilderSpec EncoderClean LayoutSpec EncoderLayout EncoderProofs EncoderInv EncoderProtocol Scopes ScopeSpec ScopeProofs.
From Coq Require Import ZifyBool ZifyNat ZifyN.

(** Validation does not look at the shared keys. *)
Lemma bind_ext {A B} (m : outcome A) (f g : A -> outcome B) : (forall x, f x = g x) -> bind m f = bind m g.
Proof. intros H. destruct m; cbn [bind]; [apply H|reflexivity..]. Qed.
Lemma bindr_ext {A B E} (m : outcome (result A E)) (f g : A -> outcome (result B E)) : (forall x, f x = g x) -> bindr m f = bindr m g.
Proof. intros H. destruct m as [[x|x]| | |]; cbn [bindr bind]; [apply H|reflexivity..]. Qed.
Section Sk.
  Variables (d : bool) (b : Z) (bs : list Z) (k1 k2 : option shared_keys).
  Let e1 := mk_env d b bs k1.
  Let e2 := mk_env d b bs k2.
  Lemma deref_sk : forall f v w, deref_checked f e1 v w = deref_checked f e2 v w.
  Proof.
    induction f as [|f IH]; intros v w; [reflexivity|]. cbn [deref_checked].
    destruct ((w && (v_len v <? 4)) || (v_len v <? 2)); [reflexivity|].
    change (get_offset e1 v w) with (get_offset e2 v w). apply bind_ext; intros off.
    destruct (off =? 0); [reflexivity|]. change (vbyte e1 v 0) with (vbyte e2 v 0). apply bind_ext; intros b0.
    change (ptr_target e1 v off) with (ptr_target e2 v off). destruct (negb _); [reflexivity|]. destruct (_ <? 0); [reflexivity|].
    change (value_type e1) with (value_type e2). apply bind_ext; intros t.
    destruct (vtype_eqb t TyPointer); [apply IH|reflexivity].
  Qed.
  Lemma elems_loop_ext (s1 s2 : Z -> dres unit) : (forall x, s1 x = s2 x) -> forall k i n cur width,
    elems_loop s1 k i n cur width = elems_loop s2 k i n cur width.
  Proof.
    intros H. induction k as [|k IH]; intros i n cur width; [reflexivity|]. cbn [elems_loop]. rewrite H.
    destruct (i <? n); [|reflexivity]. apply bindr_ext; intros. apply IH.
  Qed.
  Lemma validate_sk : forall f i w v dend, validate f e1 i w v dend = validate f e2 i w v dend.
  Proof.
    induction f as [|f IH]; intros i w v dend; [reflexivity|]. cbn [validate].
    change (value_type e1 v) with (value_type e2 v). apply bind_ext; intros t.
    assert (Hstep : forall wide width cur, (x <-? from_raw e1 cur width ;; validate f e1 true wide x (cur + width)) = (x <-? from_raw e2 cur width ;; validate f e2 true wide x (cur + width))).
    { intros wide width cur. change (from_raw e1) with (from_raw e2). apply bindr_ext; intros. apply IH. }
    destruct t.
    13, 14: change (arr_is_wide e1 v) with (arr_is_wide e2 v); apply bind_ext; intros wide;
      change (arr_len e1 v) with (arr_len e2 v); apply bind_ext; intros n;
      change (first_pos e1 v) with (first_pos e2 v); apply bind_ext; intros fp;
      change (e_dbg e1) with (e_dbg e2); change (e_base e1) with (e_base e2); change (e_data e1) with (e_data e2);
      apply bind_ext; intros bytes; apply bind_ext; intros lim;
      destruct (_ <? lim); [reflexivity|]; apply elems_loop_ext; intros; apply Hstep.
    13: change (fuel_of e1) with (fuel_of e2); rewrite deref_sk; apply bindr_ext; intros; apply IH.
    all: destruct i; reflexivity.
  Qed.
  Lemma from_bytes_sk : from_bytes e1 = from_bytes e2.
  Proof.
    assert (find_root e1 = find_root e2) as E.
    { unfold find_root. change (e_data e1) with (e_data e2). destruct (_ || _); [reflexivity|]. change (value_type e1) with (value_type e2).
      apply bind_ext; intros t. destruct (vtype_eqb t TyPointer); [|reflexivity].
      change (fuel_of e1) with (fuel_of e2). apply deref_sk. }
    unfold from_bytes. rewrite E. apply bindr_ext; intros x.
    change (fuel_of e1) with (fuel_of e2). change (e_data e1) with (e_data e2). rewrite validate_sk. reflexivity.
  Qed.
End Sk.

Lemma value_type_inside e v t : value_type e v = Ret t -> 0 <= v_pos v < lenZ (e_data e).
Proof.
  unfold value_type, vbyte. destruct (_ && _); [|discriminate]. unfold raw. rewrite Z.add_0_r.
  destruct (nthZ (e_data e) (v_pos v)) eqn:E; [|discriminate]. intros _. unfold nthZ in E.
  destruct (v_pos v <? 0) eqn:E0; [discriminate|]. assert (nth_error (e_data e) (Z.to_nat (v_pos v)) <> None) as H by congruence.
  apply nth_error_Some in H. unfold lenZ. lia.
Qed.
Lemma root_inside e v : from_bytes e = Ret (Ok v) -> 0 <= v_pos v < lenZ (e_data e).
Proof.
  unfold from_bytes. destruct (find_root e) as [[x|]| | |]; try discriminate. cbn [bindr bind].
  destruct (validate (fuel_of e) e false false x (lenZ (e_data e))) as [[u|]| | |] eqn:E; try discriminate. cbn [bindr bind]. intros H.
  assert (x = v) as -> by congruence. clear H. destruct (fuel_of e) as [|f]; [discriminate|]. cbn [validate] in E.
  destruct (value_type e v) as [t| | |] eqn:Et; try discriminate. eapply value_type_inside. exact Et.
Qed.

Lemma scope_document dbg w reg start bs sk t : reach dbg fresh w reg -> w_poisoned w = false -> fresh w start bs ->
  decodes_to dbg start bs sk t ->
  exists id w', scope_new dbg w start bs sk = (Ret id, w') /\ reach dbg fresh w' (id :: reg) /\ w_poisoned w' = false /\
    holds_document dbg w' id start bs sk t.
Proof.
  intros Hr Hp Hf (v & t' & Hb & _ & Hd & Ht).
  assert (Hb0 : from_bytes (mk_env dbg start bs None) = Ret (Ok v)) by (rewrite <- Hb; apply from_bytes_sk).
  pose proof (root_inside _ _ Hb0) as Hin. cbn [e_data] in Hin.
  destruct (usable_new dbg w start bs sk Hp) as (id & w' & En).
  { split; [|eexists; exact Hb0]. intros ->. change (lenZ (@nil Z)) with 0 in Hin. lia. }
  assert (Hr' : reach dbg fresh w' (id :: reg)) by (eapply re_new; eassumption).
  assert (Hp' : w_poisoned w' = false).
  { unfold scope_new in En. rewrite Hp in En. destruct (root_or_none dbg start bs) as [r| | |]; try discriminate.
    destruct (rm_insert _ _ _ _ _); [|discriminate]. injection En as _ <-. reflexivity. }
  exists id, w'. split; [exact En|]. split; [exact Hr'|]. split; [exact Hp'|].
  destruct (new_holds dbg w start bs sk id w' En) as (s & Ha & Hda & Hsk & Hrg & Hro). rewrite Hb0 in Hro.
  destruct (containing_complete dbg w' (id :: reg) id Hr' Hp' (or_introl eq_refl)) as (s1 & Ha1 & Hc).
  assert (s1 = s) as -> by (destruct Ha, Ha1; congruence).
  assert (Hw : forall p, start <= p < start + lenZ bs -> within s p) by (intros p Hpp; unfold scope_range in Hrg; unfold within; injection Hrg as <- ->; exact Hpp).
  exists s, v, sk, t'. split; [exact Ha|]. split; [exact Hda|]. split; [exact Hrg|]. split; [exact Hro|]. rewrite Hsk in Hc.
  split; [intros p Hpp; apply Hc, Hw, Hpp|]. split; [apply Hc, Hw; lia|]. auto.
Qed.

Lemma finish_scoped_document c prefix ops e' rs t w reg start :
  sort_ok (c_sort c) -> lenZ prefix mod 2 = 0 ->
  Forall good_op ops -> keys_ok false ops ->
  layout_ok (c_ua c) (lenZ prefix) ops -> lenZ prefix + ops_size ops <= MAX_WIDE ->
  enc_run c (enc_new_to_vec prefix) ops = Ret (e', rs) -> Forall (eq (Ok tt)) rs ->
  b_finish (fst (b_run b_init ops)) = Some t ->
  reach (c_dbg c) fresh w reg -> w_poisoned w = false ->
  exists D, finish c e' = Ret (prefix ++ D) /\
    (addressable start (prefix ++ D) -> fresh w start (prefix ++ D) ->
     exists id w', finish_scoped c w start e' = (Ret id, w') /\ reach (c_dbg c) fresh w' (id :: reg) /\ w_poisoned w' = false /\
       holds_document (c_dbg c) w' id start (prefix ++ D) (en_sk e') t).
Proof.
  intros Hs Hpx Hg Hk Hn Hw He Hrs Ht Hre Hp.
  destruct (small_round_trip c prefix ops e' rs t Hs Hpx Hg Hk Hn Hw He Hrs Ht) as (D & Hf & Hd). exists D. split; [exact Hf|].
  intros Ha Hfr. unfold finish_scoped. rewrite Hf. eapply scope_document; try eassumption. apply Hd. exact Ha.
Qed.
(** Nothing written: the output is empty, and registering it panics with the lock held. *)
Lemma finish_scoped_nothing c w start : w_poisoned w = false ->
  exists w', finish_scoped c w start enc_new = (Panic, w') /\ w_poisoned w' = true.
Proof. intros H. exact (empty_poisons (c_dbg c) w start None H). Qed.

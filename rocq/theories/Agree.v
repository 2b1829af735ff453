(** Debug and release builds: whatever the debug build computes without panicking, the
    release build computes too. *)
From Coq Require Import ZifyBool ZifyNat ZifyN.
From Verif Require Import Prelude Lib Varint Utf8 Float SharedKeys Decode Read ReadSpec Safety.

(** Same result, unless the first one panics. *)
Definition leq {A} (m m' : outcome A) : Prop := m = Panic \/ m = m'.

Lemma leq_refl {A} (m : outcome A) : leq m m.
Proof. right; reflexivity. Qed.
Lemma leq_panic {A} (m : outcome A) : leq Panic m.
Proof. left; reflexivity. Qed.
Lemma leq_bind {A B} (m m' : outcome A) (k k' : A -> outcome B) :
  leq m m' -> (forall a, leq (k a) (k' a)) -> leq (bind m k) (bind m' k').
Proof. intros [->| ->] Hk; [left; reflexivity|]. destruct m'; cbn [bind]; [apply Hk|left; reflexivity|right; reflexivity|right; reflexivity]. Qed.
Lemma leq_bindr {A B E} (m m' : outcome (result A E)) (k k' : A -> outcome (result B E)) :
  leq m m' -> (forall a, leq (k a) (k' a)) -> leq (bindr m k) (bindr m' k').
Proof.
  intros [->| ->] Hk; [left; reflexivity|].
  destruct m' as [[a|er]| | |]; cbn [bindr]; [apply Hk|right; reflexivity|left; reflexivity|right; reflexivity|right; reflexivity].
Qed.
Lemma leq_ret {A} (m m' : outcome A) a : leq m m' -> m = Ret a -> m' = Ret a.
Proof. intros [->| ->]; [discriminate|tauto]. Qed.

Lemma usize_add_leq b a c : leq (usize_add true a c) (usize_add b a c).
Proof. unfold usize_add. destruct (_ <? _); [apply leq_refl|apply leq_panic]. Qed.
Lemma usize_mul_leq b a c : leq (usize_mul true a c) (usize_mul b a c).
Proof. unfold usize_mul. destruct (_ <? _); [apply leq_refl|apply leq_panic]. Qed.
Lemma usize_sub_leq b a c : leq (usize_sub true a c) (usize_sub b a c).
Proof. unfold usize_sub. destruct (_ <=? _); [apply leq_refl|apply leq_panic]. Qed.
Lemma u64_shl_leq b a c : leq (u64_shl true a c) (u64_shl b a c).
Proof. unfold u64_shl. destruct (_ <? _); [apply leq_refl|apply leq_panic]. Qed.

Section Agree.
Variable b : bool.
Variable base : Z.
Variable data : list Z.
Variable sk : option shared_keys.
Let d := mk_env true base data sk.
Let r := mk_env b base data sk.

Lemma raw_agree p : raw r p = raw d p.  Proof. reflexivity. Qed.
Lemma value_type_agree v : value_type r v = value_type d v.  Proof. reflexivity. Qed.
Lemma get_short_agree v : get_short r v = get_short d v.  Proof. reflexivity. Qed.
Lemma arr_is_wide_agree v : arr_is_wide r v = arr_is_wide d v.  Proof. reflexivity. Qed.
Lemma get_offset_agree v w : get_offset r v w = get_offset d v w.  Proof. reflexivity. Qed.
Lemma deref_checked_agree : forall f v w, deref_checked f r v w = deref_checked f d v w.
Proof.
  induction f as [|f IH]; intros v w; cbn [deref_checked]; [reflexivity|].
  destruct (_ || _); [reflexivity|]. change (get_offset r v w) with (get_offset d v w). destruct (get_offset d v w); try reflexivity. cbn [bind].
  destruct (_ =? 0); [reflexivity|]. change (vbyte r v 0) with (vbyte d v 0). destruct (vbyte d v 0); try reflexivity. cbn [bind].
  destruct (negb _); [reflexivity|]. change (ptr_target r v a) with (ptr_target d v a). destruct (_ <? 0); [reflexivity|].
  change (value_type r (V (ptr_target d v a) a)) with (value_type d (V (ptr_target d v a) a)).
  destruct (value_type d _); try reflexivity. cbn [bind]. destruct (vtype_eqb _ _); [apply IH|reflexivity].
Qed.

Lemma varint_loop_leq get len : forall n i s x, leq (varint_read_loop true get len n i s x) (varint_read_loop b get len n i s x).
Proof.
  induction n as [|n IH]; intros i s x; cbn [varint_read_loop]; [apply leq_refl|].
  destruct (_ <? _); [|apply leq_refl]. apply leq_bind; [apply leq_refl|]. intros y. destruct (_ <=? _).
  - apply leq_bind; [apply u64_shl_leq|]. intros z. apply IH.
  - apply leq_bind; [apply u64_shl_leq|]. intros z. apply leq_refl.
Qed.
Lemma varint_at_leq v o : leq (varint_at d v o) (varint_at r v o).
Proof.
  unfold varint_at. destruct (_ <? _); [apply leq_refl|]. unfold varint_read. destruct (_ <=? _); [apply leq_refl|].
  apply leq_bind; [apply leq_refl|]. intros y. destruct (_ <? _); [apply leq_refl|]. apply varint_loop_leq.
Qed.
Lemma get_data_leq v : leq (get_data d v) (get_data r v).
Proof.
  unfold get_data. destruct (_ <? _); [apply leq_refl|]. apply leq_bind; [apply leq_refl|]. intros y. cbv zeta.
  destruct (_ =? _); [|apply leq_refl]. apply leq_bind; [apply varint_at_leq|]. intros [n x]. destruct (_ =? _); [apply leq_refl|].
  apply leq_bind; [apply usize_add_leq|]. intros; apply leq_refl.
Qed.
Lemma required_size_leq v : leq (required_size d v) (required_size r v).
Proof.
  unfold required_size. apply leq_bind; [apply leq_refl|]. intros t. destruct t; try apply leq_refl;
    (apply leq_bind; [apply get_data_leq|intros; apply leq_refl]).
Qed.
Lemma from_raw_leq p w : leq (from_raw d p w) (from_raw r p w).
Proof.
  unfold from_raw. cbv zeta. destruct (_ <? 2).
  - apply leq_bind; [apply leq_refl|]. intros _. apply leq_bind; [apply required_size_leq|intros; apply leq_refl].
  - apply leq_bind; [apply required_size_leq|]. intros n. destruct (_ <? _); apply leq_refl.
Qed.
Lemma arr_len_leq v : leq (arr_len d v) (arr_len r v).
Proof.
  unfold arr_len. apply leq_bind; [apply leq_refl|]. intros s. destruct (_ =? _); [|apply leq_refl].
  apply leq_bind; [apply varint_at_leq|]. intros [n x]. destruct (_ =? _); [apply leq_refl|].
  apply leq_bind; [apply leq_refl|]. intros t. destruct (vtype_eqb _ _); [apply usize_mul_leq|apply leq_refl].
Qed.
Lemma first_pos_leq v : leq (first_pos d v) (first_pos r v).
Proof.
  unfold first_pos. destruct (_ <? _); [apply leq_refl|]. apply leq_bind; [apply leq_refl|]. intros s. destruct (_ =? _); [|apply leq_refl].
  apply leq_bind; [apply varint_at_leq|]. intros [n x]. apply leq_refl.
Qed.
Lemma elems_loop_leq stp stp' : (forall c, leq (stp c) (stp' c)) ->
  forall k i n c w, leq (elems_loop stp k i n c w) (elems_loop stp' k i n c w).
Proof.
  intros H. induction k as [|k IH]; intros; cbn [elems_loop]; [apply leq_refl|]. destruct (_ <? _); [|apply leq_refl].
  apply leq_bindr; [apply H|]. intros; apply IH.
Qed.
Lemma scalar_leq (el : bool) v dend :
  leq (if el then Ret (Ok tt) else
         n <- required_size d v ;; en <- usize_add (e_dbg d) (e_base d + v_pos v) n ;;
         if en <=? e_base d + dend then Ret (Ok tt)
         else _ <- usize_sub (e_dbg d) (e_base d + dend) (e_base d + v_pos v) ;; Ret (@Err unit _ ValueOutOfBounds))
      (if el then Ret (Ok tt) else
         n <- required_size r v ;; en <- usize_add (e_dbg r) (e_base r + v_pos v) n ;;
         if en <=? e_base r + dend then Ret (Ok tt)
         else _ <- usize_sub (e_dbg r) (e_base r + dend) (e_base r + v_pos v) ;; Ret (@Err unit _ ValueOutOfBounds)).
Proof.
  destruct el; [apply leq_refl|]. apply leq_bind; [apply required_size_leq|]. intros n. cbn [e_base e_dbg d r].
  apply leq_bind; [apply usize_add_leq|]. intros en. destruct (_ <=? _); [apply leq_refl|].
  apply leq_bind; [apply usize_sub_leq|intros; apply leq_refl].
Qed.
Lemma coll_leq (g g' : bool -> val -> Z -> dres unit) v dend :
  (forall w x z, leq (g w x z) (g' w x z)) ->
  leq (wide <- arr_is_wide d v ;;
          let width := width_of wide in
          n <- arr_len d v ;; fp <- first_pos d v ;;
          let first := v_pos v + fp in
          bytes <- usize_mul (e_dbg d) n width ;;
          lim <- usize_add (e_dbg d) (e_base d + first) bytes ;;
          if e_base d + dend <? lim then
            _ <- usize_sub (e_dbg d) (e_base d + dend) (e_base d + first) ;; Ret (@Err unit _ ArrayOutOfBounds)
          else elems_loop (fun cur => x <-? from_raw d cur width ;; g wide x (cur + width))
              (S (S (length (e_data d)))) 0 n first width)
      (wide <- arr_is_wide r v ;;
          let width := width_of wide in
          n <- arr_len r v ;; fp <- first_pos r v ;;
          let first := v_pos v + fp in
          bytes <- usize_mul (e_dbg r) n width ;;
          lim <- usize_add (e_dbg r) (e_base r + first) bytes ;;
          if e_base r + dend <? lim then
            _ <- usize_sub (e_dbg r) (e_base r + dend) (e_base r + first) ;; Ret (@Err unit _ ArrayOutOfBounds)
          else elems_loop (fun cur => x <-? from_raw r cur width ;; g' wide x (cur + width))
              (S (S (length (e_data r)))) 0 n first width).
Proof.
  intros Hg. apply leq_bind; [apply leq_refl|]. intros wide. cbv zeta. apply leq_bind; [apply arr_len_leq|]. intros n.
  apply leq_bind; [apply first_pos_leq|]. intros fp. cbn [e_base e_dbg e_data d r].
  apply leq_bind; [apply usize_mul_leq|]. intros bytes. apply leq_bind; [apply usize_add_leq|]. intros lim.
  destruct (_ <? _); [apply leq_bind; [apply usize_sub_leq|intros; apply leq_refl]|].
  apply elems_loop_leq. intros c. apply leq_bindr; [apply from_raw_leq|]. intros x. apply Hg.
Qed.
Lemma validate_leq : forall f el w v dend, leq (validate f d el w v dend) (validate f r el w v dend).
Proof.
  induction f as [|f IH]; intros; cbn [validate]; [apply leq_refl|]. apply leq_bind; [apply leq_refl|]. intros t.
  pose proof (scalar_leq el v dend) as Hs.
  pose proof (coll_leq (fun w x z => validate f d true w x z) (fun w x z => validate f r true w x z) v dend (fun w x z => IH true w x z)) as Hc.
  destruct t; try exact Hs; try exact Hc.
  rewrite (deref_checked_agree (fuel_of r)). apply leq_bindr; [apply leq_refl|]. intros t. apply IH.
Qed.
Lemma from_bytes_leq : leq (from_bytes d) (from_bytes r).
Proof.
  unfold from_bytes. apply leq_bindr.
  - unfold find_root. cbv zeta. change (e_data r) with data. change (e_data d) with data. destruct (_ || _); [apply leq_refl|].
    apply leq_bind; [apply leq_refl|]. intros t. destruct (vtype_eqb _ _); [|apply leq_refl].
    change (fuel_of r) with (fuel_of d). rewrite deref_checked_agree. apply leq_refl.
  - intros x. apply leq_bindr; [apply validate_leq|]. intros; apply leq_refl.
Qed.

End Agree.

(** Where the data lies in memory makes no difference. *)
From Coq Require Import ZifyBool.
From Verif Require Import Prelude Lib Varint Utf8 Float SharedKeys Decode Read ReadSpec Safety Alloced.
Ltac Zify.zify_post_hook ::= Z.div_mod_to_equations.

Lemma bind_eq {A B} (m m' : outcome A) (k k' : A -> outcome B) :
  m = m' -> (forall a, m' = Ret a -> k a = k' a) -> bind m k = bind m' k'.
Proof. intros -> H. destruct m'; cbn [bind]; auto. Qed.
Lemma bindr_eq {A B E} (m m' : outcome (result A E)) (k k' : A -> outcome (result B E)) :
  m = m' -> (forall a, m' = Ret (Ok a) -> k a = k' a) -> bindr m k = bindr m' k'.
Proof. intros -> H. destruct m' as [[a|x]| | |]; cbn [bindr]; auto. Qed.

Section Moved.
Variable e : env.
Variable b : Z.
Hypothesis Hwf : wf_env e.
Hypothesis Hwf' : wf_env (moved e b).
Local Notation e' := (moved e b).

(* Everything that does not follow pointers does not look at the address at all. *)
Lemma value_type_moved v : value_type e' v = value_type e v. Proof. reflexivity. Qed.
Lemma required_size_moved v : required_size e' v = required_size e v. Proof. reflexivity. Qed.
Lemma from_raw_moved p w : from_raw e' p w = from_raw e p w. Proof. reflexivity. Qed.
Lemma fuel_moved : fuel_of e' = fuel_of e. Proof. reflexivity. Qed.

Lemma raw_bytes_range p n bs : 0 < n -> raw_bytes e p n = Ret bs -> 0 <= p /\ p + n <= lenZ (e_data e).
Proof. unfold raw_bytes. intros Hn. destruct (n <=? 0) eqn:E; [lia|]. destruct (_ && _) eqn:E2; [|discriminate]. intros _. lia. Qed.
Lemma get_offset_range v wide off : get_offset e v wide = Ret off ->
  0 <= v_pos v < lenZ (e_data e) /\ 0 <= off < 2147483648.
Proof.
  unfold get_offset. destruct wide; intros H; binv H; apply ret_inj in H; subst off; apply raw_bytes_range in Hx; try lia.
  - rewrite land_3fffffff. lia.
  - rewrite land_3fff. lia.
Qed.
Lemma target_at x v off : wf_env x -> e_data x = e_data e -> 0 <= v_pos v < lenZ (e_data e) -> 0 <= off < 2147483648 ->
  ptr_target x v off = v_pos v - off.
Proof.
  intros (_ & W1 & W2) Hd H1 H2. unfold ptr_target, wrap_u64. rewrite Hd in W2. rewrite Z.mod_small; [lia|]. unfold two63, two64 in *. lia.
Qed.
Lemma target_moved v wide off : get_offset e v wide = Ret off -> ptr_target e' v off = ptr_target e v off.
Proof. intros H. apply get_offset_range in H as [H1 H2]. rewrite !target_at; auto. Qed.

Lemma deref_checked_moved : forall f v wide, deref_checked f e' v wide = deref_checked f e v wide.
Proof.
  induction f as [|f IH]; intros v wide; [reflexivity|]. cbn [deref_checked]. destruct (_ || _); [reflexivity|].
  apply bind_eq; [reflexivity|]. intros off Ho. destruct (off =? 0); [reflexivity|].
  rewrite (target_moved _ _ _ Ho). cbv zeta. apply bind_eq; [reflexivity|]. intros b0 _.
  destruct (negb _); [reflexivity|]. destruct (_ <? 0); [reflexivity|]. apply bind_eq; [reflexivity|]. intros t _.
  destruct (vtype_eqb t TyPointer); [apply IH|reflexivity].
Qed.
Lemma deref_unchecked_moved : forall f v wide, deref_unchecked f e' v wide = deref_unchecked f e v wide.
Proof.
  induction f as [|f IH]; intros v wide; [reflexivity|]. cbn [deref_unchecked].
  apply bind_eq; [reflexivity|]. intros off Ho. change (e_dbg e') with (e_dbg e). destruct (_ && _); [reflexivity|].
  rewrite (target_moved _ _ _ Ho). cbv zeta. apply bind_eq; [reflexivity|]. intros t _.
  destruct (vtype_eqb t TyPointer); [apply IH|reflexivity].
Qed.
Lemma resolve_moved v wide : resolve e' v wide = resolve e v wide.
Proof. unfold resolve. apply bind_eq; [reflexivity|]. intros t _. destruct (vtype_eqb t TyPointer); [|reflexivity]. apply deref_unchecked_moved. Qed.
Lemma arr_get_unchecked_moved v i : arr_get_unchecked e' v i = arr_get_unchecked e v i.
Proof. unfold arr_get_unchecked. do 4 (apply bind_eq; [reflexivity|]; intros ? _; cbv zeta). apply resolve_moved. Qed.
Lemma arr_get_moved v i : arr_get e' v i = arr_get e v i.
Proof.
  unfold arr_get. apply bind_eq; [reflexivity|]. intros n _. destruct (n <? i); [reflexivity|].
  apply bind_eq; [apply arr_get_unchecked_moved|reflexivity].
Qed.
Lemma iter_next_moved it : iter_next e' it = iter_next e it.
Proof.
  unfold iter_next. destruct (it_next it); [|reflexivity]. destruct (_ <=? _); [reflexivity|].
  apply bind_eq; [apply resolve_moved|reflexivity].
Qed.
Lemma iter_collect_moved : forall f it, iter_collect f e' it = iter_collect f e it.
Proof.
  induction f as [|f IH]; intros it; [reflexivity|]. cbn [iter_collect]. apply bind_eq; [apply iter_next_moved|].
  intros [x it'] _. destruct x; [|reflexivity]. apply bind_eq; [apply IH|reflexivity].
Qed.
Lemma arr_elems_moved v : arr_elems e' v = arr_elems e v.
Proof. unfold arr_elems. apply bind_eq; [reflexivity|]. intros it _. apply iter_collect_moved. Qed.
Lemma dict_pair_moved v i : dict_pair e' v i = dict_pair e v i.
Proof.
  unfold dict_pair. apply bind_eq; [reflexivity|]. intros o _. apply bind_eq; [apply arr_get_unchecked_moved|]. intros k _.
  apply bind_eq; [reflexivity|]. intros o1 _. apply bind_eq; [apply arr_get_unchecked_moved|reflexivity].
Qed.
Lemma dict_key_cmp_moved k v w : dict_key_cmp e' k v w = dict_key_cmp e k v w.
Proof.
  unfold dict_key_cmp. apply bind_eq; [reflexivity|]. intros t _. change (e_dbg e') with (e_dbg e).
  destruct (_ && _); [reflexivity|]. destruct k, t; try reflexivity.
  apply bind_eq; [apply deref_unchecked_moved|reflexivity].
Qed.
Lemma dict_search_moved k : forall f v l r s, dict_search f e' v k l r s = dict_search f e v k l r s.
Proof.
  induction f as [|f IH]; intros v l r s; [reflexivity|]. cbn [dict_search]. destruct (l <? r); [|reflexivity]. cbv zeta.
  apply bind_eq; [apply dict_pair_moved|]. intros p _. apply bind_eq; [reflexivity|]. intros w _.
  apply bind_eq; [apply dict_key_cmp_moved|]. intros c _. destruct c; [reflexivity|apply IH|apply IH].
Qed.
Lemma uses_shared_keys_moved v : uses_shared_keys e' v = uses_shared_keys e v.
Proof.
  unfold uses_shared_keys. apply bind_eq; [reflexivity|]. intros n _. destruct (n =? 0); [reflexivity|].
  apply bind_eq; [apply dict_pair_moved|reflexivity].
Qed.
Lemma encode_key_moved v k sk : encode_key e' v k sk = encode_key e v k sk.
Proof. unfold encode_key. destruct sk; [reflexivity|]. apply bind_eq; [apply uses_shared_keys_moved|reflexivity]. Qed.
Lemma dict_get_moved v k : dict_get e' v k = dict_get e v k.
Proof.
  unfold dict_get. apply bind_eq; [apply encode_key_moved|]. intros dk _. unfold dict_get_key.
  apply bind_eq; [reflexivity|]. intros n _. apply dict_search_moved.
Qed.
Lemma dict_get_sk_moved v k sk : dict_get_sk e' v k sk = dict_get_sk e v k sk.
Proof.
  unfold dict_get_sk. apply bind_eq; [apply encode_key_moved|]. intros dk _. unfold dict_get_key.
  apply bind_eq; [reflexivity|]. intros n _. apply dict_search_moved.
Qed.
Lemma dict_first_moved v : dict_first e' v = dict_first e v.
Proof. unfold dict_first. apply bind_eq; [reflexivity|]. intros n _. destruct (n =? 0); [reflexivity|]. apply bind_eq; [apply dict_pair_moved|reflexivity]. Qed.
Lemma dict_iter_next_moved it : dict_iter_next e' it = dict_iter_next e it.
Proof.
  unfold dict_iter_next. apply bind_eq; [apply iter_next_moved|]. intros [k it1] _. destruct k; [|reflexivity].
  apply bind_eq; [reflexivity|]. intros t _. apply bind_eq; [reflexivity|]. intros s _. destruct s; [|reflexivity].
  apply bind_eq; [apply iter_next_moved|reflexivity].
Qed.
Lemma dict_collect_moved : forall f it, dict_collect f e' it = dict_collect f e it.
Proof.
  induction f as [|f IH]; intros it; [reflexivity|]. cbn [dict_collect]. apply bind_eq; [apply dict_iter_next_moved|].
  intros [x it'] _. destruct x; [|reflexivity]. apply bind_eq; [apply IH|reflexivity].
Qed.
Lemma dict_elems_moved v : dict_elems e' v = dict_elems e v.
Proof. unfold dict_elems. apply bind_eq; [reflexivity|]. intros it _. apply dict_collect_moved. Qed.

Lemma mapM_eq {A B} (f g : A -> outcome B) l : (forall x, f x = g x) -> mapM f l = mapM g l.
Proof. intros H. induction l as [|x l IH]; [reflexivity|]. cbn [mapM]. rewrite H, IH. reflexivity. Qed.
Lemma read_tree_moved : forall f v, read_tree f e' v = read_tree f e v.
Proof.
  induction f as [|f IH]; intros v; [reflexivity|]. cbn [read_tree]. apply bind_eq; [reflexivity|]. intros t _.
  destruct t; try reflexivity.
  - apply bind_eq; [apply arr_elems_moved|]. intros vs _. apply bind_eq; [apply mapM_eq; exact IH|reflexivity].
  - apply bind_eq; [apply dict_elems_moved|]. intros vs _. apply bind_eq; [|reflexivity]. apply mapM_eq.
    intros x. apply bind_eq; [apply IH|reflexivity].
Qed.
Lemma find_root_moved : find_root e' = find_root e.
Proof.
  unfold find_root. change (e_data e') with (e_data e). cbv zeta. destruct (_ || _); [reflexivity|].
  apply bind_eq; [reflexivity|]. intros t _. destruct (vtype_eqb t TyPointer); [|reflexivity]. apply deref_checked_moved.
Qed.
Lemma from_bytes_unchecked_moved : from_bytes_unchecked e' = from_bytes_unchecked e.
Proof.
  unfold from_bytes_unchecked. change (e_data e') with (e_data e). cbv zeta. destruct (_ <? 2); [reflexivity|].
  apply bind_eq; [reflexivity|]. intros t _. destruct (vtype_eqb t TyPointer); [|reflexivity]. apply deref_unchecked_moved.
Qed.

(* ---------- validation ---------- *)

Lemma usize_sub_shift d x y p q : usize_sub d (x + p) (x + q) = usize_sub d (y + p) (y + q).
Proof.
  unfold usize_sub. replace (x + p - (x + q)) with (p - q) by lia. replace (y + p - (y + q)) with (p - q) by lia.
  destruct (x + q <=? x + p) eqn:E1, (y + q <=? y + p) eqn:E2; try reflexivity; lia.
Qed.
Lemma elems_loop_eq stp stp' w n : forall k i cur,
  (forall j, i <= j < n -> stp (cur + (j - i) * w) = stp' (cur + (j - i) * w)) ->
  elems_loop stp k i n cur w = elems_loop stp' k i n cur w.
Proof.
  induction k as [|k IH]; intros i cur H; [reflexivity|]. cbn [elems_loop]. destruct (i <? n) eqn:E; [|reflexivity].
  apply bindr_eq.
  - specialize (H i ltac:(lia)). replace (cur + (i - i) * w) with cur in H by lia. exact H.
  - intros _ _. apply IH. intros j Hj. specialize (H j ltac:(lia)).
    replace (cur + w + (j - (i + 1)) * w) with (cur + (j - i) * w) by lia. exact H.
Qed.
Lemma elems_loop_keeps stp stp' w n : forall k i cur, elems_loop stp k i n cur w = Ret (Ok tt) ->
  (forall j, i <= j < n -> stp (cur + (j - i) * w) = Ret (Ok tt) -> stp' (cur + (j - i) * w) = Ret (Ok tt)) ->
  elems_loop stp' k i n cur w = Ret (Ok tt).
Proof.
  intros k i cur H Hs. rewrite <- H. apply elems_loop_eq. intros j Hj.
  pose proof (elems_loop_inv _ _ _ _ _ _ H j Hj) as Hj'. rewrite Hj'. apply Hs; assumption.
Qed.

Lemma modest_bytes v wide n : inslice e v -> arr_len e v = Ret n -> modest e ->
  0 <= n * width_of wide < 4611686018427387904.
Proof.
  intros Hin Hn Hm. apply arr_len_range in Hn as (Hn & _ & Hmd & _); [|assumption|assumption]. specialize (Hmd Hm).
  destruct wide; cbn [width_of]; lia.
Qed.
Lemma first_in v fp : inslice e v -> 2 <= v_len v -> first_pos e v = Ret fp -> 0 <= v_pos v + fp <= lenZ (e_data e) + 14.
Proof. intros (A & B & C) Hl H. apply first_pos_range in H as (H & _); [|assumption|split; [|split]; assumption|assumption]. lia. Qed.

Lemma scalar_moved (is_elem : bool) v dend : inslice e v ->
  (if is_elem then Ret (Ok tt) else
     n <- required_size e' v ;; en <- usize_add (e_dbg e') (e_base e' + v_pos v) n ;;
     if en <=? e_base e' + dend then Ret (Ok tt)
     else _ <- usize_sub (e_dbg e') (e_base e' + dend) (e_base e' + v_pos v) ;; Ret (@Err unit _ ValueOutOfBounds)) =
  (if is_elem then Ret (Ok tt) else
     n <- required_size e v ;; en <- usize_add (e_dbg e) (e_base e + v_pos v) n ;;
     if en <=? e_base e + dend then Ret (Ok tt)
     else _ <- usize_sub (e_dbg e) (e_base e + dend) (e_base e + v_pos v) ;; Ret (@Err unit _ ValueOutOfBounds)).
Proof.
  intros Hin. destruct is_elem; [reflexivity|]. apply bind_eq; [reflexivity|]. intros n Hn.
  apply required_size_range in Hn; [|assumption|assumption]. destruct Hin as (I1 & I2 & I3).
  destruct Hwf as (_ & W1 & W2). destruct Hwf' as (_ & W3 & W4). cbn [moved e_base e_data e_dbg] in *.
  unfold two63 in *.
  assert (Ha : forall x, 2147483648 <= x -> x + lenZ (e_data e) < 9223372036854775808 ->
            usize_add (e_dbg e) (x + v_pos v) n = Ret (x + v_pos v + n)).
  { intros x X1 X2. unfold usize_add, two64. destruct (x + v_pos v + n <? 18446744073709551616) eqn:E; [reflexivity|lia]. }
  rewrite !Ha by assumption. cbn [bind]. rewrite (usize_sub_shift (e_dbg e) b (e_base e) dend (v_pos v)).
  destruct (b + v_pos v + n <=? b + dend) eqn:E1, (e_base e + v_pos v + n <=? e_base e + dend) eqn:E2; try reflexivity; lia.
Qed.

Lemma validate_moved : modest e -> forall f is_elem is_wide v dend,
  inslice e v -> 2 <= v_len v -> v_pos v + v_len v <= dend <= lenZ (e_data e) ->
  validate f e' is_elem is_wide v dend = validate f e is_elem is_wide v dend.
Proof.
  intros Hm. induction f as [|f IH]; intros is_elem is_wide v dend Hin Hl Hd; [reflexivity|].
  cbn [validate]. apply bind_eq; [reflexivity|]. intros ty _.
  assert (Hcoll : (wide <- arr_is_wide e' v ;;
          let width := width_of wide in
          n <- arr_len e' v ;; fp <- first_pos e' v ;;
          let first := v_pos v + fp in
          bytes <- usize_mul (e_dbg e') n width ;;
          lim <- usize_add (e_dbg e') (e_base e' + first) bytes ;;
          if e_base e' + dend <? lim then
            _ <- usize_sub (e_dbg e') (e_base e' + dend) (e_base e' + first) ;; Ret (@Err unit _ ArrayOutOfBounds)
          else elems_loop (fun cur => x <-? from_raw e' cur width ;; validate f e' true wide x (cur + width))
              (S (S (length (e_data e')))) 0 n first width) =
         (wide <- arr_is_wide e v ;;
          let width := width_of wide in
          n <- arr_len e v ;; fp <- first_pos e v ;;
          let first := v_pos v + fp in
          bytes <- usize_mul (e_dbg e) n width ;;
          lim <- usize_add (e_dbg e) (e_base e + first) bytes ;;
          if e_base e + dend <? lim then
            _ <- usize_sub (e_dbg e) (e_base e + dend) (e_base e + first) ;; Ret (@Err unit _ ArrayOutOfBounds)
          else elems_loop (fun cur => x <-? from_raw e cur width ;; validate f e true wide x (cur + width))
              (S (S (length (e_data e)))) 0 n first width)).
  { apply bind_eq; [reflexivity|]. intros wide Hw. cbv zeta. apply bind_eq; [reflexivity|]. intros n Hn.
    apply bind_eq; [reflexivity|]. intros fp Hfp.
    pose proof (modest_bytes v wide n Hin Hn Hm) as Hb. pose proof (first_in v fp Hin Hl Hfp) as Hf.
    destruct Hwf as (_ & W1 & W2). destruct Hwf' as (_ & W3 & W4). cbn [moved e_base e_data e_dbg] in *. unfold two63 in *.
    assert (Hmul : usize_mul (e_dbg e) n (width_of wide) = Ret (n * width_of wide)).
    { unfold usize_mul, two64. destruct (_ <? _) eqn:E; [reflexivity|lia]. }
    rewrite Hmul. cbn [bind].
    assert (Ha : forall x, 2147483648 <= x -> x + lenZ (e_data e) < 9223372036854775808 ->
              usize_add (e_dbg e) (x + (v_pos v + fp)) (n * width_of wide) = Ret (x + (v_pos v + fp) + n * width_of wide)).
    { intros x X1 X2. unfold usize_add, two64. destruct (_ <? _) eqn:E; [reflexivity|lia]. }
    rewrite !Ha by assumption. cbn [bind]. rewrite (usize_sub_shift (e_dbg e) b (e_base e) dend (v_pos v + fp)).
    destruct (b + dend <? b + (v_pos v + fp) + n * width_of wide) eqn:E1,
             (e_base e + dend <? e_base e + (v_pos v + fp) + n * width_of wide) eqn:E2; try reflexivity; try lia.
    apply elems_loop_eq. intros j Hj. apply bindr_eq; [reflexivity|]. intros x Hx.
    assert (Hc : inslice e (V (v_pos v + fp + (j - 0) * width_of wide) (width_of wide))).
    { unfold inslice; cbn [v_pos v_len]. destruct wide; cbn [width_of] in *; lia. }
    apply from_raw_safe in Hx as (-> & _); [|exact Hwf|exact Hc].
    apply IH; [exact Hc|cbn [v_len]; destruct wide; cbn; lia|]. destruct Hc as (C1 & C2 & C3). cbn [v_pos v_len] in *. lia. }
  destruct ty; try (apply scalar_moved; assumption); try exact Hcoll.
  apply bindr_eq; [apply deref_checked_moved|]. intros t Ht.
  apply deref_checked_safe in Ht; [|assumption|assumption|apply fuel_enough; assumption].
  destruct Ht as (T1 & T2 & T3 & _). apply IH; [assumption|assumption|]. destruct Hin as (I1 & I2 & I3). lia.
Qed.
Lemma from_bytes_moved : modest e -> from_bytes e' = from_bytes e.
Proof.
  intros Hm. unfold from_bytes. apply bindr_eq; [apply find_root_moved|]. intros r Hr.
  apply find_root_safe in Hr as (A & B & C & _); [|assumption]. apply bindr_eq; [|reflexivity].
  apply validate_moved; [assumption|assumption|assumption|]. change (e_data e') with (e_data e). lia.
Qed.

Lemma validate_accepts : forall f is_elem is_wide v dend,
  inslice e v -> 2 <= v_len v -> v_pos v + v_len v <= dend <= lenZ (e_data e) ->
  validate f e is_elem is_wide v dend = Ret (Ok tt) ->
  validate f e' is_elem is_wide v dend = Ret (Ok tt).
Proof.
  induction f as [|f IH]; intros is_elem is_wide v dend Hin Hl Hd H; [discriminate|].
  cbn [validate] in H |- *. binv H. rename x into ty, Hx into Hty.
  change (value_type e' v) with (value_type e v). rewrite Hty. cbn [bind].
  assert (Hcoll : (wide <- arr_is_wide e v ;;
          let width := width_of wide in
          n <- arr_len e v ;; fp <- first_pos e v ;;
          let first := v_pos v + fp in
          bytes <- usize_mul (e_dbg e) n width ;;
          lim <- usize_add (e_dbg e) (e_base e + first) bytes ;;
          if e_base e + dend <? lim then
            _ <- usize_sub (e_dbg e) (e_base e + dend) (e_base e + first) ;; Ret (@Err unit _ ArrayOutOfBounds)
          else elems_loop (fun cur => x <-? from_raw e cur width ;; validate f e true wide x (cur + width))
              (S (S (length (e_data e)))) 0 n first width) = Ret (Ok tt) ->
         (wide <- arr_is_wide e' v ;;
          let width := width_of wide in
          n <- arr_len e' v ;; fp <- first_pos e' v ;;
          let first := v_pos v + fp in
          bytes <- usize_mul (e_dbg e') n width ;;
          lim <- usize_add (e_dbg e') (e_base e' + first) bytes ;;
          if e_base e' + dend <? lim then
            _ <- usize_sub (e_dbg e') (e_base e' + dend) (e_base e' + first) ;; Ret (@Err unit _ ArrayOutOfBounds)
          else elems_loop (fun cur => x <-? from_raw e' cur width ;; validate f e' true wide x (cur + width))
              (S (S (length (e_data e')))) 0 n first width) = Ret (Ok tt)).
  { clear H. intros H. binv H. rename x into wide, Hx into Hw. cbv zeta in H. binv H. rename x into n, Hx into Hn.
    binv H. rename x into fp, Hx into Hfp. binv H. rename x into bytes, Hx into Hby. binv H. rename x into lim, Hx into Hlim.
    change (arr_is_wide e' v) with (arr_is_wide e v). change (arr_len e' v) with (arr_len e v).
    change (first_pos e' v) with (first_pos e v). rewrite Hw, Hn, Hfp. cbn [bind]. cbv zeta. cbn [bind].
    destruct (_ <? lim) eqn:El; [binv H; discriminate|].
    assert (Hsmall : v_pos v + fp + n * width_of wide <= dend).
    { eapply (lim_exact_small e Hwf v wide n fp dend bytes lim); try eassumption. intros j Hj.
      pose proof (elems_loop_inv _ _ _ _ _ _ H j ltac:(lia)) as Hs. cbv beta in Hs. binv Hs. apply from_raw_reads in Hx; [|assumption]. lia. }
    pose proof (first_in v fp Hin Hl Hfp) as Hf. pose proof (arr_len_range e Hwf v n Hin Hn) as (Hn0 & _).
    assert (Hw24 : 2 <= width_of wide <= 4) by (destruct wide; cbn; lia).
    assert (Hwn : 0 <= n * width_of wide) by nia.
    destruct Hwf as (_ & W1 & W2). destruct Hwf' as (_ & W3 & W4). cbn [moved e_base e_data e_dbg] in *. unfold two63 in *.
    assert (Hmul : usize_mul (e_dbg e) n (width_of wide) = Ret (n * width_of wide)).
    { unfold usize_mul, two64. destruct (n * width_of wide <? _) eqn:E; [reflexivity|lia]. }
    rewrite Hmul. cbn [bind].
    assert (Ha : usize_add (e_dbg e) (b + (v_pos v + fp)) (n * width_of wide) = Ret (b + (v_pos v + fp) + n * width_of wide)).
    { unfold usize_add, two64. destruct (b + (v_pos v + fp) + n * width_of wide <? _) eqn:E; [reflexivity|lia]. }
    rewrite Ha. cbn [bind]. destruct (b + dend <? _) eqn:E; [lia|].
    eapply elems_loop_keeps; [exact H|]. cbv beta. intros j Hj Hs. binv Hs.
    change (from_raw e' (v_pos v + fp + (j - 0) * width_of wide) (width_of wide)) with (from_raw e (v_pos v + fp + (j - 0) * width_of wide) (width_of wide)).
    change (from_raw (mk_env (e_dbg e) b (e_data e) (e_sk e)) (v_pos v + fp + (j - 0) * width_of wide) (width_of wide)) with (from_raw e (v_pos v + fp + (j - 0) * width_of wide) (width_of wide)).
    rewrite Hx. cbn [bindr].
    assert (Hc : inslice e (V (v_pos v + fp + (j - 0) * width_of wide) (width_of wide))).
    { destruct Hin as (I1 & I2 & I3). unfold inslice; cbn [v_pos v_len]. nia. }
    apply from_raw_safe in Hx as (-> & _); [|exact Hwf|exact Hc].
    apply IH; [exact Hc|cbn [v_len]; lia| |exact Hs]. destruct Hc as (C1 & C2 & C3). cbn [v_pos v_len] in *. lia. }
  pose proof (scalar_moved is_elem v dend Hin) as Hsc.
  destruct ty; try (apply Hcoll; exact H); try (rewrite Hsc; exact H).
  binv H. rewrite deref_checked_moved. change (fuel_of e') with (fuel_of e). rewrite Hx. cbn [bindr].
  apply deref_checked_safe in Hx; [|assumption|assumption|apply fuel_enough; assumption].
  destruct Hx as (T1 & T2 & T3 & _). apply IH; [assumption|assumption| |exact H]. destruct Hin as (I1 & I2 & I3). lia.
Qed.
Lemma from_bytes_accepts r : from_bytes e = Ret (Ok r) -> from_bytes e' = Ret (Ok r).
Proof.
  intros H. unfold from_bytes in *. binv H. binv H. injection H as ->. destruct x0. rewrite find_root_moved, Hx. cbn [bindr].
  apply find_root_safe in Hx as (A & B & C & _); [|assumption]. rewrite fuel_moved. change (e_data e') with (e_data e).
  rewrite (validate_accepts (fuel_of e) false false r (lenZ (e_data e)) A B ltac:(lia) Hx0). reflexivity.
Qed.
End Moved.

(** The bytes around a document make no difference to what is read from it. *)
From Coq Require Import ZifyBool.
From Verif Require Import Prelude Lib Varint Utf8 Float SharedKeys Decode Read ReadSpec Safety Place AroundSpec.
Ltac Zify.zify_post_hook ::= Z.div_mod_to_equations.

Lemma sb_ret {A B} (g : A -> B) x y : y = g x -> same_by g (Ret x) (Ret y).
Proof. intros -> z H. apply ret_inj in H as ->. reflexivity. Qed.
Lemma sb_refl {A} (m : outcome A) : same_by (fun x => x) m m.
Proof. intros x H. exact H. Qed.
Lemma sb_bind {A A' B B'} (g : A -> A') (h : B -> B') m m' k k' :
  same_by g m m' -> (forall x, same_by h (k x) (k' (g x))) -> same_by h (bind m k) (bind m' k').
Proof. intros Hm Hk y H. destruct m as [x| | |]; try discriminate. rewrite (Hm x eq_refl). cbn [bind] in *. apply Hk. exact H. Qed.
Lemma sb_mapM {A A' B B'} (g : A -> A') (h : B -> B') f f' l :
  (forall x, same_by h (f x) (f' (g x))) -> same_by (map h) (mapM f l) (mapM f' (map g l)).
Proof.
  intros Hf. induction l as [|x l IH]; cbn [mapM map]; [apply sb_ret; reflexivity|].
  eapply sb_bind; [apply Hf|]. intros y. eapply sb_bind; [exact IH|]. intros ys. apply sb_ret. reflexivity.
Qed.
Lemma sb_panic {A B} (g : A -> B) m : same_by g Panic m.
Proof. intros x H. discriminate. Qed.
Lemma sb_div {A B} (g : A -> B) m : same_by g Diverge m.
Proof. intros x H. discriminate. Qed.

Create HintDb around.
Ltac sb := repeat (first
  [ solve [eauto 3 with around nocore]
  | apply sb_panic
  | apply sb_div
  | match goal with
    | |- same_by _ ?m ?m => apply sb_refl
    | |- same_by _ (Ret _) (Ret _) => apply sb_ret; reflexivity
    | |- same_by _ (bind _ _) (bind _ _) => eapply sb_bind; [solve [eauto 3 with around nocore]|intros ?]
    | |- same_by _ (match ?x with _ => _ end) (match ?x with _ => _ end) => destruct x
    | |- same_by _ (match ?x with _ => _ end) _ => destruct x
    end ]; cbn beta iota zeta).

Section Around.
Variables P Q : list Z.
Variable e : env.
Local Notation e' := (around P Q e).
Local Notation sh := (shifted P).
Local Notation id := (fun x => x).

Lemma len_around : lenZ (e_data e') = lenZ P + lenZ (e_data e) + lenZ Q.
Proof. cbn [around e_data]. rewrite !lenZ_app. lia. Qed.
Lemma fuel_around : (fuel_of e <= fuel_of e')%nat.
Proof. unfold fuel_of. cbn [around e_data]. rewrite !app_length. lia. Qed.
Lemma length_around : (length (e_data e) <= length (e_data e'))%nat.
Proof. cbn [around e_data]. rewrite !app_length. lia. Qed.

Lemma sb_raw p q : q = p + lenZ P -> same_by id (raw e p) (raw e' q).
Proof.
  intros -> b. unfold raw. destruct (nthZ (e_data e) p) as [x|] eqn:E; [|discriminate]. intros H. apply ret_inj in H as ->.
  pose proof (nthZ_Some _ _ _ E) as Hr. cbn [around e_data]. rewrite nthZ_app_r by lia.
  replace (p + lenZ P - lenZ P) with p by lia. rewrite nthZ_app_l by lia. rewrite E. reflexivity.
Qed.
Lemma sb_bytes p n q : q = p + lenZ P -> same_by id (raw_bytes e p n) (raw_bytes e' q n).
Proof.
  intros -> bs. unfold raw_bytes. destruct (n <=? 0) eqn:E; [intros H; exact H|].
  destruct (_ && _) eqn:E2; [|discriminate]. intros H. apply ret_inj in H as <-. rewrite len_around.
  assert (Hr : 0 <= p /\ p + n <= lenZ (e_data e)) by lia.
  pose proof (lenZ_nonneg P). pose proof (lenZ_nonneg Q).
  assert (E3 : (0 <=? p + lenZ P) && (p + lenZ P + n <=? lenZ P + lenZ (e_data e) + lenZ Q) = true) by lia. rewrite E3. f_equal. cbn [around e_data]. rewrite subl_app_r by lia.
  replace (p + lenZ P - lenZ P) with p by lia. rewrite subl_app_l by lia. reflexivity.
Qed.
Lemma sb_vbyte v i : same_by id (vbyte e v i) (vbyte e' (sh v) i).
Proof. unfold vbyte. cbn [shifted v_pos v_len]. destruct (_ && _); [|apply sb_panic]. apply sb_raw. lia. Qed.
Lemma sb_vslice v a b : same_by sh (vslice v a b) (vslice (sh v) a b).
Proof. unfold vslice. cbn [shifted v_pos v_len]. destruct (_ && _); [|apply sb_panic]. apply sb_ret. unfold shifted; cbn [v_pos v_len]. f_equal; lia. Qed.
Lemma sb_content s : same_by id (slice_content e s) (slice_content e' (sh s)).
Proof. unfold slice_content. cbn [shifted v_pos v_len]. apply sb_bytes. lia. Qed.
Hint Resolve sb_vbyte sb_vslice sb_content : around.
Lemma sb_type v : same_by id (value_type e v) (value_type e' (sh v)).
Proof. unfold value_type. sb. Qed.
Lemma sb_short v : same_by id (get_short e v) (get_short e' (sh v)).
Proof.
  unfold get_short. cbn [shifted v_pos v_len]. destruct (_ <? _); [apply sb_panic|].
  eapply sb_bind; [apply sb_raw; reflexivity|]. intros b0. eapply sb_bind; [apply sb_raw; lia|]. intros b1. apply sb_refl.
Qed.
Hint Resolve sb_type sb_short : around.
Lemma sb_varint_loop d get get' len n : (forall i, same_by id (get i) (get' i)) -> forall i s r,
  same_by id (varint_read_loop d get len n i s r) (varint_read_loop d get' len n i s r).
Proof.
  intros Hg. induction n as [|n IH]; intros i s r; cbn [varint_read_loop]; [apply sb_refl|].
  destruct (_ <? _); [|apply sb_refl]. eapply sb_bind; [apply Hg|]. intros b. destruct (_ <=? _).
  - eapply sb_bind; [apply sb_refl|]. intros x. apply IH.
  - apply sb_refl.
Qed.
Lemma sb_varint v off : same_by id (varint_at e v off) (varint_at e' (sh v) off).
Proof.
  unfold varint_at. cbn [shifted v_pos v_len]. change (e_dbg e') with (e_dbg e). destruct (_ <? _); [apply sb_panic|].
  assert (Hg : forall i, same_by id (raw e (v_pos v + off + i)) (raw e' (v_pos v + lenZ P + off + i))) by (intros i; apply sb_raw; lia).
  unfold varint_read. destruct (_ <=? 0); [apply sb_refl|]. eapply sb_bind; [apply Hg|]. intros b0.
  destruct (_ <? 128); [apply sb_refl|]. apply sb_varint_loop. exact Hg.
Qed.
Hint Resolve sb_varint : around.
Lemma sb_nothing v : same_by sh (Ret (V (v_pos v) 0)) (Ret (V (v_pos (sh v)) 0)).
Proof. apply sb_ret. reflexivity. Qed.
Hint Resolve sb_nothing : around.
Lemma sb_uadd d a b : same_by id (usize_add d a b) (usize_add d a b). Proof. apply sb_refl. Qed.
Lemma sb_umul d a b : same_by id (usize_mul d a b) (usize_mul d a b). Proof. apply sb_refl. Qed.
Hint Resolve sb_uadd sb_umul : around.
Lemma sb_data v : same_by sh (get_data e v) (get_data e' (sh v)).
Proof. unfold get_data. change (v_len (sh v)) with (v_len v). change (e_dbg e') with (e_dbg e). sb. Qed.
Hint Resolve sb_data : around.
Lemma sb_int v : same_by id (int_payload e v) (int_payload e' (sh v)).
Proof.
  unfold int_payload. eapply sb_bind; [apply sb_vbyte|]. intros b0. cbn zeta. change (v_len (sh v)) with (v_len v). destruct (_ <? _); [apply sb_panic|].
  eapply sb_bind; [apply sb_bytes; cbn [shifted v_pos]; lia|]. intros bs. apply sb_refl.
Qed.
Lemma sb_float v t : same_by id (float_payload e v t) (float_payload e' (sh v) t).
Proof. unfold float_payload. sb. Qed.
Hint Resolve sb_int sb_float : around.
Lemma sb_to_int v : same_by id (to_int e v) (to_int e' (sh v)).
Proof. unfold to_int. sb. Qed.
Hint Resolve sb_to_int : around.
Lemma sb_to_uint v : same_by id (to_unsigned_int e v) (to_unsigned_int e' (sh v)).
Proof. unfold to_unsigned_int. sb. Qed.
Lemma sb_to_double v : same_by id (to_double e v) (to_double e' (sh v)).
Proof. unfold to_double. sb. Qed.
Hint Resolve sb_to_uint sb_to_double : around.
Lemma sb_to_float v : same_by id (to_float e v) (to_float e' (sh v)).
Proof. unfold to_float. sb. Qed.
Lemma sb_to_short v : same_by id (to_short e v) (to_short e' (sh v)).
Proof. unfold to_short. sb. Qed.
Lemma sb_to_ushort v : same_by id (to_unsigned_short e v) (to_unsigned_short e' (sh v)).
Proof. unfold to_unsigned_short. sb. Qed.
Lemma sb_to_bool v : same_by id (to_bool e v) (to_bool e' (sh v)).
Proof. unfold to_bool. sb. Qed.
Lemma sb_to_data v : same_by id (to_data e v) (to_data e' (sh v)).
Proof. unfold to_data. sb. Qed.
Lemma sb_to_str v : same_by id (to_str e v) (to_str e' (sh v)).
Proof. unfold to_str. sb. Qed.
Lemma sb_required v : same_by id (required_size e v) (required_size e' (sh v)).
Proof. unfold required_size. sb. Qed.
Hint Resolve sb_to_float sb_to_short sb_to_ushort sb_to_bool sb_to_data sb_to_str sb_required : around.

(* pointers *)
Lemma sb_offset v w : same_by id (get_offset e v w) (get_offset e' (sh v) w).
Proof. unfold get_offset. destruct w; (eapply sb_bind; [apply sb_bytes; cbn [shifted v_pos]; lia|intros bs; apply sb_refl]). Qed.
Lemma target_around v off : ptr_target e' (sh v) off = ptr_target e v off + lenZ P.
Proof.
  unfold ptr_target. cbn [shifted v_pos around e_base].
  replace (e_base e - lenZ P + (v_pos v + lenZ P) - off) with (e_base e + v_pos v - off) by lia. lia.
Qed.
Hint Resolve sb_offset : around.
Lemma sb_deref : forall f f' v w, (f <= f')%nat -> same_by sh (deref_unchecked f e v w) (deref_unchecked f' e' (sh v) w).
Proof.
  induction f as [|f IH]; intros f' v w Hf; cbn [deref_unchecked]; [apply sb_div|].
  destruct f' as [|f']; [lia|]. cbn [deref_unchecked]. eapply sb_bind; [apply sb_offset|]. intros off. change (e_dbg e') with (e_dbg e).
  destruct (_ && _); [apply sb_panic|]. cbn zeta. rewrite target_around.
  change (V (ptr_target e v off + lenZ P) off) with (sh (V (ptr_target e v off) off)).
  eapply sb_bind; [apply sb_type|]. intros t. destruct (vtype_eqb t TyPointer); [apply IH; lia|]. apply sb_ret. reflexivity.
Qed.
Lemma sb_resolve v w : same_by sh (resolve e v w) (resolve e' (sh v) w).
Proof. unfold resolve. eapply sb_bind; [apply sb_type|]. intros t. destruct (vtype_eqb t TyPointer); [apply sb_deref, fuel_around|apply sb_ret; reflexivity]. Qed.
Hint Resolve sb_resolve : around.

(* arrays *)
Lemma sb_wide v : same_by id (arr_is_wide e v) (arr_is_wide e' (sh v)).
Proof. unfold arr_is_wide. sb. Qed.
Lemma sb_len v : same_by id (arr_len e v) (arr_len e' (sh v)).
Proof. unfold arr_len. change (e_dbg e') with (e_dbg e). sb. Qed.
Lemma sb_first_pos v : same_by id (first_pos e v) (first_pos e' (sh v)).
Proof. unfold first_pos. change (v_len (sh v)) with (v_len v). sb. Qed.
Hint Resolve sb_wide sb_len sb_first_pos : around.
Lemma sb_resolve' v v' w : v' = sh v -> same_by sh (resolve e v w) (resolve e' v' w).
Proof. intros ->. apply sb_resolve. Qed.
Lemma sb_get_unchecked v i : same_by sh (arr_get_unchecked e v i) (arr_get_unchecked e' (sh v) i).
Proof.
  unfold arr_get_unchecked. change (e_dbg e') with (e_dbg e). sb. apply sb_resolve'. unfold shifted; cbn [v_pos v_len]. f_equal. lia.
Qed.
Hint Resolve sb_get_unchecked : around.
Lemma sb_get v i : same_by (option_map sh) (arr_get e v i) (arr_get e' (sh v) i).
Proof. unfold arr_get. sb. Qed.
Lemma sb_iter v : same_by (shifted_iter P) (arr_iter e v) (arr_iter e' (sh v)).
Proof.
  unfold arr_iter. sb. apply sb_ret. unfold shifted_iter; cbn [it_next it_width it_index it_len option_map]. unfold shifted; cbn [v_pos v_len]. do 3 f_equal. lia.
Qed.
Lemma sb_next it : same_by (fun r => (option_map sh (fst r), shifted_iter P (snd r))) (iter_next e it) (iter_next e' (shifted_iter P it)).
Proof.
  unfold iter_next. destruct it as [[c|] w i n]; cbn [shifted_iter it_next it_width it_index it_len option_map]; [|apply sb_ret; reflexivity].
  destruct (_ <=? _); [apply sb_ret; reflexivity|]. eapply sb_bind; [apply sb_resolve|]. intros r. apply sb_ret. cbn [fst snd option_map].
  unfold shifted_iter; cbn [it_next it_width it_index it_len]. destruct (_ <? _); cbn [option_map]; [|reflexivity].
  unfold shifted; cbn [v_pos v_len]. replace (v_pos c + lenZ P + w) with (v_pos c + w + lenZ P) by lia. reflexivity.
Qed.
Hint Resolve sb_get sb_iter sb_next : around.
Lemma sb_collect : forall f f' it, (f <= f')%nat -> same_by (map sh) (iter_collect f e it) (iter_collect f' e' (shifted_iter P it)).
Proof.
  induction f as [|f IH]; intros f' it Hf; cbn [iter_collect]; [apply sb_div|]. destruct f' as [|f']; [lia|]. cbn [iter_collect].
  eapply sb_bind; [apply sb_next|]. intros [x it1]. cbn [fst snd]. destruct x as [x|]; cbn [option_map]; [|apply sb_ret; reflexivity].
  eapply sb_bind; [apply IH; lia|]. intros vs. apply sb_ret. reflexivity.
Qed.
Lemma sb_elems v : same_by (map sh) (arr_elems e v) (arr_elems e' (sh v)).
Proof. unfold arr_elems. eapply sb_bind; [apply sb_iter|]. intros it. apply sb_collect. pose proof length_around. lia. Qed.
Hint Resolve sb_elems : around.

(* dicts *)
Lemma sb_dict_len v : same_by id (dict_len e v) (dict_len e' (sh v)).
Proof. unfold dict_len. sb. Qed.
Definition sh2 (p : val * val) : val * val := (sh (fst p), sh (snd p)).
Definition shk (p : list Z * val) : list Z * val := (fst p, sh (snd p)).
Lemma sb_pair v i : same_by sh2 (dict_pair e v i) (dict_pair e' (sh v) i).
Proof. unfold dict_pair. change (e_dbg e') with (e_dbg e). sb. Qed.
Lemma sb_deref_full v w : same_by sh (deref_unchecked (fuel_of e) e v w) (deref_unchecked (fuel_of e') e' (sh v) w).
Proof. apply sb_deref, fuel_around. Qed.
Hint Resolve sb_dict_len sb_pair sb_deref_full : around.
Lemma sb_cmp k v w : same_by id (dict_key_cmp e k v w) (dict_key_cmp e' k (sh v) w).
Proof. unfold dict_key_cmp. change (e_dbg e') with (e_dbg e). sb. Qed.
Hint Resolve sb_cmp : around.
Lemma sb_search : forall f v k a b n, same_by (option_map sh) (dict_search f e v k a b n) (dict_search f e' (sh v) k a b n).
Proof.
  induction f as [|f IH]; intros v k a b n; cbn [dict_search]; [apply sb_div|]. destruct (_ <? _); [|apply sb_ret; reflexivity].
  cbn zeta. eapply sb_bind; [apply sb_pair|]. intros p. eapply sb_bind; [apply sb_wide|]. intros w. eapply sb_bind; [apply sb_cmp|]. intros c.
  destruct c; [apply sb_ret; reflexivity|apply IH|apply IH].
Qed.
Hint Resolve sb_search : around.
Lemma sb_get_key v k : same_by (option_map sh) (dict_get_key e v k) (dict_get_key e' (sh v) k).
Proof. unfold dict_get_key. sb. Qed.
Lemma sb_uses v : same_by id (uses_shared_keys e v) (uses_shared_keys e' (sh v)).
Proof.
  unfold uses_shared_keys. eapply sb_bind; [apply sb_len|]. intros n. destruct (n =? 0); [apply sb_refl|].
  eapply sb_bind; [apply sb_pair|]. intros p. eapply sb_bind; [apply (sb_type (fst p))|]. intros t. apply sb_refl.
Qed.
Hint Resolve sb_get_key sb_uses : around.
Lemma sb_encode_key v k t : same_by id (encode_key e v k t) (encode_key e' (sh v) k t).
Proof. unfold encode_key. change (e_sk e') with (e_sk e). sb. Qed.
Hint Resolve sb_encode_key : around.
Lemma sb_dict_get v k : same_by (option_map sh) (dict_get e v k) (dict_get e' (sh v) k).
Proof. unfold dict_get. sb. Qed.
Lemma sb_dict_get_sk v k t : same_by (option_map sh) (dict_get_sk e v k t) (dict_get_sk e' (sh v) k t).
Proof. unfold dict_get_sk. sb. Qed.
Lemma sb_first v : same_by (option_map sh2) (dict_first e v) (dict_first e' (sh v)).
Proof. unfold dict_first. sb. Qed.
Lemma sb_dict_next it : same_by (fun r => (option_map shk (fst r), shifted_iter P (snd r))) (dict_iter_next e it) (dict_iter_next e' (shifted_iter P it)).
Proof.
  unfold dict_iter_next. change (e_sk e') with (e_sk e). eapply sb_bind; [apply sb_next|]. intros [k it1]. cbn [fst snd].
  destruct k as [k|]; cbn [option_map]; [|apply sb_ret; reflexivity]. eapply sb_bind; [apply sb_type|]. intros t.
  eapply (sb_bind id).
  - sb.
  - intros [s|]; [|apply sb_ret; reflexivity]. eapply sb_bind; [apply sb_next|]. intros [x it2]. cbn [fst snd].
    destruct x as [x|]; cbn [option_map]; apply sb_ret; reflexivity.
Qed.
Lemma sb_dict_collect : forall f f' it, (f <= f')%nat -> same_by (map shk) (dict_collect f e it) (dict_collect f' e' (shifted_iter P it)).
Proof.
  induction f as [|f IH]; intros f' it Hf; cbn [dict_collect]; [apply sb_div|]. destruct f' as [|f']; [lia|]. cbn [dict_collect].
  eapply sb_bind; [apply sb_dict_next|]. intros [x it1]. cbn [fst snd]. destruct x as [x|]; cbn [option_map]; [|apply sb_ret; reflexivity].
  eapply sb_bind; [apply IH; lia|]. intros vs. apply sb_ret. reflexivity.
Qed.
Lemma sb_dict_elems v : same_by (map shk) (dict_elems e v) (dict_elems e' (sh v)).
Proof. unfold dict_elems. eapply sb_bind; [apply sb_iter|]. intros it. apply sb_dict_collect. pose proof length_around. lia. Qed.

Lemma map_same {A} (l : list A) : map (fun x => x) l = l. Proof. apply map_id. Qed.
Lemma sb_read_tree : forall f f' v, (f <= f')%nat -> same_by id (read_tree f e v) (read_tree f' e' (sh v)).
Proof.
  induction f as [|f IH]; intros f' v Hf; cbn [read_tree]; [apply sb_div|]. destruct f' as [|f']; [lia|]. cbn [read_tree].
  eapply sb_bind; [apply sb_type|]. intros t. destruct t; try solve [sb].
  - eapply sb_bind; [apply sb_elems|]. intros vs. eapply sb_bind.
    + apply (sb_mapM sh id). intros x. apply IH. lia.
    + intros l. apply sb_ret. rewrite map_same. reflexivity.
  - eapply sb_bind; [apply sb_dict_elems|]. intros vs. eapply sb_bind.
    + apply (sb_mapM shk id). intros x. eapply sb_bind; [apply IH; lia|]. intros y. apply sb_refl.
    + intros l. apply sb_ret. rewrite map_same. reflexivity.
Qed.
Lemma sb_read_doc v : same_by id (read_doc e v) (read_doc e' (sh v)).
Proof. apply sb_read_tree, fuel_around. Qed.

(* opening: only what is accepted *)
Definition okay_by {A B} (g : A -> B) (m : dres A) (m' : dres B) : Prop := forall x, m = Ret (Ok x) -> m' = Ret (Ok (g x)).
Lemma ob_bind {A A' B B'} (g : A -> A') (h : B -> B') (m : outcome A) (m' : outcome A') (k : A -> dres B) (k' : A' -> dres B') :
  same_by g m m' -> (forall x, okay_by h (k x) (k' (g x))) -> okay_by h (bind m k) (bind m' k').
Proof. intros Hm Hk y H. destruct m as [x| | |]; try discriminate. rewrite (Hm x eq_refl). cbn [bind] in *. apply Hk. exact H. Qed.
Lemma ob_bindr {A A' B B'} (g : A -> A') (h : B -> B') (m : dres A) (m' : dres A') (k : A -> dres B) (k' : A' -> dres B') :
  okay_by g m m' -> (forall x, okay_by h (k x) (k' (g x))) -> okay_by h (bindr m k) (bindr m' k').
Proof. intros Hm Hk y H. destruct m as [[x|x]| | |]; try discriminate. rewrite (Hm x eq_refl). cbn [bindr] in *. apply Hk. exact H. Qed.
Lemma ob_err {A B} (g : A -> B) x m : okay_by g (Ret (Err x)) m.
Proof. intros y H. discriminate. Qed.
Lemma ob_panic {A B} (g : A -> B) m : okay_by g Panic m.
Proof. intros y H. discriminate. Qed.
Lemma ob_ok {A B} (g : A -> B) x : okay_by g (Ret (Ok x)) (Ret (Ok (g x))).
Proof. intros y H. apply ret_inj in H. injection H as ->. reflexivity. Qed.
Lemma ob_div {A B} (g : A -> B) m : okay_by g Diverge m.
Proof. intros y H. discriminate. Qed.
Lemma ob_same {A B} (g : A -> B) (m : dres A) (m' : dres B) :
  same_by (fun r => match r with Ok x => Ok (g x) | Err y => Err y end) m m' -> okay_by g m m'.
Proof. intros H x Hx. apply (H (Ok x) Hx). Qed.

Lemma ob_deref : forall f f' v w, (f <= f')%nat -> okay_by sh (deref_checked f e v w) (deref_checked f' e' (sh v) w).
Proof.
  induction f as [|f IH]; intros f' v w Hf; cbn [deref_checked]; [apply ob_div|].
  destruct f' as [|f']; [lia|]. cbn [deref_checked]. change (v_len (sh v)) with (v_len v). destruct (_ || _); [apply ob_err|].
  eapply ob_bind; [apply sb_offset|]. intros off. destruct (off =? 0); [apply ob_err|]. cbn zeta.
  eapply ob_bind; [apply sb_vbyte|]. intros b0. destruct (negb _); [apply ob_panic|]. rewrite target_around.
  destruct (ptr_target e v off <? 0) eqn:E; [apply ob_err|].
  destruct (ptr_target e v off + lenZ P <? 0) eqn:E'; [pose proof (lenZ_nonneg P); lia|].
  change (V (ptr_target e v off + lenZ P) off) with (sh (V (ptr_target e v off) off)).
  eapply ob_bind; [apply sb_type|]. intros t. destruct (vtype_eqb t TyPointer); [apply IH; lia|apply ob_ok].
Qed.
Lemma ob_loop s s' : (forall cur, okay_by id (s cur) (s' (cur + lenZ P))) -> forall k k' i n cur w, (k <= k')%nat ->
  okay_by id (elems_loop s k i n cur w) (elems_loop s' k' i n (cur + lenZ P) w).
Proof.
  intros Hs. induction k as [|k IH]; intros k' i n cur w Hk; cbn [elems_loop]; [apply ob_div|]. destruct k' as [|k']; [lia|]. cbn [elems_loop].
  destruct (_ <? _); [|apply ob_ok]. eapply ob_bindr; [apply Hs|]. intros _.
  replace (cur + lenZ P + w) with (cur + w + lenZ P) by lia. apply IH. lia.
Qed.
Lemma ob_from_raw p w q : q = p + lenZ P -> okay_by sh (from_raw e p w) (from_raw e' q w).
Proof.
  intros ->. unfold from_raw. cbn [v_len]. change (V (p + lenZ P) w) with (sh (V p w)). destruct (_ <? 2).
  - eapply ob_bind; [apply sb_type|]. intros t. eapply ob_bind; [apply sb_required|]. intros n. apply ob_err.
  - eapply ob_bind; [apply sb_required|]. intros n. destruct (_ <? _); [|apply ob_ok]. eapply ob_bind; [apply sb_type|]. intros t. apply ob_err.
Qed.
Lemma ob_coll f f' v d : (f <= f')%nat ->
  (forall f' ie w v d, (f <= f')%nat -> okay_by id (validate f e ie w v d) (validate f' e' ie w (sh v) (d + lenZ P))) ->
  okay_by id
    (wide <- arr_is_wide e v ;;
     let width := width_of wide in
     n <- arr_len e v ;; fp <- first_pos e v ;;
     let first := v_pos v + fp in
     bytes <- usize_mul (e_dbg e) n width ;;
     lim <- usize_add (e_dbg e) (e_base e + first) bytes ;;
     if e_base e + d <? lim then
       _ <- usize_sub (e_dbg e) (e_base e + d) (e_base e + first) ;; Ret (@Err unit _ ArrayOutOfBounds)
     else elems_loop (fun cur => x <-? from_raw e cur width ;; validate f e true wide x (cur + width))
         (S (S (length (e_data e)))) 0 n first width)
    (wide <- arr_is_wide e' (sh v) ;;
     let width := width_of wide in
     n <- arr_len e' (sh v) ;; fp <- first_pos e' (sh v) ;;
     let first := v_pos (sh v) + fp in
     bytes <- usize_mul (e_dbg e') n width ;;
     lim <- usize_add (e_dbg e') (e_base e' + first) bytes ;;
     if e_base e' + (d + lenZ P) <? lim then
       _ <- usize_sub (e_dbg e') (e_base e' + (d + lenZ P)) (e_base e' + first) ;; Ret (@Err unit _ ArrayOutOfBounds)
     else elems_loop (fun cur => x <-? from_raw e' cur width ;; validate f' e' true wide x (cur + width))
         (S (S (length (e_data e')))) 0 n first width).
Proof.
  intros Hf IH. change (e_dbg e') with (e_dbg e). change (e_base e') with (e_base e - lenZ P). change (v_pos (sh v)) with (v_pos v + lenZ P).
  eapply ob_bind; [apply sb_wide|]. intros wide. cbn zeta. eapply ob_bind; [apply sb_len|]. intros n.
  eapply ob_bind; [apply sb_first_pos|]. intros fp. eapply ob_bind; [apply sb_refl|]. intros bytes.
  replace (e_base e - lenZ P + (v_pos v + lenZ P + fp)) with (e_base e + (v_pos v + fp)) by lia.
  replace (e_base e - lenZ P + (d + lenZ P)) with (e_base e + d) by lia.
  eapply ob_bind; [apply sb_refl|]. intros lim. destruct (_ <? lim).
  - eapply ob_bind; [apply sb_refl|]. intros _. apply ob_err.
  - replace (v_pos v + lenZ P + fp) with (v_pos v + fp + lenZ P) by lia. apply ob_loop; [|pose proof length_around; lia].
    intros cur. eapply ob_bindr; [apply ob_from_raw; reflexivity|]. intros x.
    replace (cur + lenZ P + width_of wide) with (cur + width_of wide + lenZ P) by lia. apply IH. exact Hf.
Qed.
Lemma ob_validate : forall f f' ie w v d, (f <= f')%nat ->
  okay_by id (validate f e ie w v d) (validate f' e' ie w (sh v) (d + lenZ P)).
Proof.
  induction f as [|f IH]; intros f' ie w v d Hf; cbn [validate]; [apply ob_div|]. destruct f' as [|f']; [lia|]. cbn [validate].
  eapply ob_bind; [apply sb_type|]. intros t.
  pose proof (ob_coll f f' v d ltac:(lia) IH) as Hc.
  assert (Hs : okay_by id
    (if ie then Ret (Ok tt) else
     n <- required_size e v ;; en <- usize_add (e_dbg e) (e_base e + v_pos v) n ;;
     if en <=? e_base e + d then Ret (Ok tt)
     else _ <- usize_sub (e_dbg e) (e_base e + d) (e_base e + v_pos v) ;; Ret (@Err unit _ ValueOutOfBounds))
    (if ie then Ret (Ok tt) else
     n <- required_size e' (sh v) ;; en <- usize_add (e_dbg e') (e_base e' + v_pos (sh v)) n ;;
     if en <=? e_base e' + (d + lenZ P) then Ret (Ok tt)
     else _ <- usize_sub (e_dbg e') (e_base e' + (d + lenZ P)) (e_base e' + v_pos (sh v)) ;; Ret (@Err unit _ ValueOutOfBounds))).
  { destruct ie; [apply ob_ok|]. eapply ob_bind; [apply sb_required|]. intros n.
    change (e_dbg e') with (e_dbg e). change (e_base e') with (e_base e - lenZ P). change (v_pos (sh v)) with (v_pos v + lenZ P).
    replace (e_base e - lenZ P + (v_pos v + lenZ P)) with (e_base e + v_pos v) by lia.
    replace (e_base e - lenZ P + (d + lenZ P)) with (e_base e + d) by lia.
    eapply ob_bind; [apply sb_refl|]. intros en. destruct (_ <=? _); [apply ob_ok|]. eapply ob_bind; [apply sb_refl|]. intros _. apply ob_err. }
  destruct t; try exact Hs; try exact Hc.
  eapply ob_bindr; [apply ob_deref, fuel_around|]. intros x. change (v_pos (sh v)) with (v_pos v + lenZ P). apply IH. lia.
Qed.
End Around.

Lemma ob_from_bytes P e r : lenZ P mod 2 = 0 -> from_bytes e = Ret (Ok r) -> lenZ (e_data e) <> 2 \/ P = [] ->
  from_bytes (around P [] e) = Ret (Ok (shifted P r)).
Proof.
  intros Hp H H2. unfold from_bytes, find_root in *. cbv zeta in H |- *.
  rewrite len_around. change (lenZ (@nil Z)) with 0. rewrite Z.add_0_r.
  pose proof (lenZ_nonneg P) as Hp0. set (n := lenZ (e_data e)) in *.
  destruct ((n =? 0) || negb (n mod 2 =? 0)) eqn:E; [discriminate|]. assert (0 <= n) by apply lenZ_nonneg.
  assert (E' : (lenZ P + n =? 0) || negb ((lenZ P + n) mod 2 =? 0) = false) by lia. rewrite E'.
  replace (V (lenZ P + n - 2) 2) with (shifted P (V (n - 2) 2)) by (unfold shifted; cbn [v_pos v_len]; f_equal; lia).
  destruct (value_type e (V (n - 2) 2)) as [t| | |] eqn:Et; try discriminate. rewrite (sb_type P [] e _ _ Et). cbn [bind] in *.
  destruct (vtype_eqb t TyPointer).
  - destruct (deref_checked (fuel_of e) e (V (n - 2) 2) false) as [[x|y]| | |] eqn:Ed; try discriminate. cbn [bindr] in H.
    rewrite (ob_deref P [] e (fuel_of e) (fuel_of (around P [] e)) _ _ (fuel_around P [] e) x Ed). cbn [bindr].
    destruct (validate (fuel_of e) e false false x n) as [[u|y]| | |] eqn:Ev; try discriminate. destruct u. cbn [bindr] in H.
    replace (lenZ P + n) with (n + lenZ P) by lia.
    rewrite (ob_validate P [] e (fuel_of e) (fuel_of (around P [] e)) _ _ _ _ (fuel_around P [] e) tt Ev). cbn [bindr].
    apply ret_inj in H. injection H as ->. reflexivity.
  - destruct H2 as [H2|H2].
    + destruct (n =? 2) eqn:E2; [lia|discriminate].
    + subst P. change (lenZ (@nil Z)) with 0 in *. cbn [Z.add]. destruct (n =? 2); [|discriminate]. cbn [bindr] in *.
      destruct (validate (fuel_of e) e false false (V (n - 2) 2) n) as [[u|y]| | |] eqn:Ev; try discriminate. destruct u. cbn [bindr] in H.
      pose proof (ob_validate [] [] e (fuel_of e) (fuel_of (around [] [] e)) _ _ _ _ (fuel_around [] [] e) tt Ev) as Hv.
      change (lenZ (@nil Z)) with 0 in Hv. rewrite Z.add_0_r in Hv. rewrite Hv. cbn [bindr].
      apply ret_inj in H. injection H as ->. reflexivity.
Qed.

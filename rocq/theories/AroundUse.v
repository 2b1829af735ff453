(** Everything that reads a document through the basic accessors: serde, copies, key tables. *)
From Coq Require Import ZifyBool.
From Verif Require Import Prelude Lib Varint Utf8 Float SharedKeys Decode Read ReadSpec Safety Encodable Encoder SharedKeysState Scopes Ser De Mutable FromScope Alloced Place AroundSpec Around.

(** What is read through [e] is read through [e'], values corresponding by [g]. *)
Record seen_through (e e' : env) (g : val -> val) (gi : aiter -> aiter) : Prop := mk_seen {
  se_dbg : e_dbg e' = e_dbg e;
  se_sk : e_sk e' = e_sk e;
  se_length : (length (e_data e) <= length (e_data e'))%nat;
  se_width : forall it, it_width (gi it) = it_width it;
  se_type : forall v, same_by (fun x => x) (value_type e v) (value_type e' (g v));
  se_bool : forall v, same_by (fun x => x) (to_bool e v) (to_bool e' (g v));
  se_short : forall v, same_by (fun x => x) (to_short e v) (to_short e' (g v));
  se_ushort : forall v, same_by (fun x => x) (to_unsigned_short e v) (to_unsigned_short e' (g v));
  se_int : forall v, same_by (fun x => x) (to_int e v) (to_int e' (g v));
  se_uint : forall v, same_by (fun x => x) (to_unsigned_int e v) (to_unsigned_int e' (g v));
  se_float : forall v, same_by (fun x => x) (to_float e v) (to_float e' (g v));
  se_double : forall v, same_by (fun x => x) (to_double e v) (to_double e' (g v));
  se_str : forall v, same_by (fun x => x) (to_str e v) (to_str e' (g v));
  se_data : forall v, same_by (fun x => x) (to_data e v) (to_data e' (g v));
  se_deref : forall v w, same_by g (deref_unchecked (fuel_of e) e v w) (deref_unchecked (fuel_of e') e' (g v) w);
  se_wide : forall v, same_by (fun x => x) (arr_is_wide e v) (arr_is_wide e' (g v));
  se_len : forall v, same_by (fun x => x) (arr_len e v) (arr_len e' (g v));
  se_get : forall v i, same_by (option_map g) (arr_get e v i) (arr_get e' (g v) i);
  se_iter : forall v, same_by gi (arr_iter e v) (arr_iter e' (g v));
  se_next : forall it, same_by (fun r => (option_map g (fst r), gi (snd r))) (iter_next e it) (iter_next e' (gi it));
  se_elems : forall v, same_by (map g) (arr_elems e v) (arr_elems e' (g v));
  se_dict_get : forall v k, same_by (option_map g) (dict_get e v k) (dict_get e' (g v) k);
  se_dict_get_sk : forall v k t, same_by (option_map g) (dict_get_sk e v k t) (dict_get_sk e' (g v) k t);
  se_dict_elems : forall v, same_by (map (fun kv => (fst kv, g (snd kv)))) (dict_elems e v) (dict_elems e' (g v));
  se_read : forall v, same_by (fun x => x) (read_doc e v) (read_doc e' (g v));
}.

Lemma seen_around P Q e : seen_through e (around P Q e) (shifted P) (shifted_iter P).
Proof.
  constructor; intros; try reflexivity.
  - apply length_around.
  - apply sb_type.
  - apply sb_to_bool.
  - apply sb_to_short.
  - apply sb_to_ushort.
  - apply sb_to_int.
  - apply sb_to_uint.
  - apply sb_to_float.
  - apply sb_to_double.
  - apply sb_to_str.
  - apply sb_to_data.
  - apply sb_deref_full.
  - apply sb_wide.
  - apply sb_len.
  - apply sb_get.
  - apply sb_iter.
  - apply sb_next.
  - apply sb_elems.
  - apply sb_dict_get.
  - apply sb_dict_get_sk.
  - apply sb_dict_elems.
  - apply sb_read_doc.
Qed.
Lemma sb_eq {A} (m m' : outcome A) : m' = m -> same_by (fun x => x) m m'.
Proof. intros ->. apply sb_refl. Qed.
Lemma sb_eq_by {A} (h : A -> A) (m m' : outcome A) : (forall x, h x = x) -> m' = m -> same_by h m m'.
Proof. intros Hh -> x ->. rewrite Hh. reflexivity. Qed.
Lemma seen_moved e b : wf_env e -> wf_env (moved e b) -> seen_through e (moved e b) (fun v => v) (fun it => it).
Proof.
  intros H H'.
  constructor; intros; try reflexivity; try (apply sb_eq; reflexivity).
  - apply sb_eq. rewrite fuel_moved. apply deref_unchecked_moved; assumption.
  - apply sb_eq_by; [intros []; reflexivity|]. apply arr_get_moved; assumption.
  - apply sb_eq_by; [intros [[] ?]; reflexivity|]. apply iter_next_moved; assumption.
  - apply sb_eq_by; [apply map_id|]. apply arr_elems_moved; assumption.
  - apply sb_eq_by; [intros []; reflexivity|]. apply dict_get_moved; assumption.
  - apply sb_eq_by; [intros []; reflexivity|]. apply dict_get_sk_moved; assumption.
  - apply sb_eq_by; [|apply dict_elems_moved; assumption]. intros l. rewrite <- (map_id l) at 2. apply map_ext. intros []; reflexivity.
  - apply sb_eq. unfold read_doc. rewrite fuel_moved. apply read_tree_moved; assumption.
Qed.

Lemma sb_bindr {A B E} (m m' : outcome (result A E)) (k k' : A -> outcome (result B E)) :
  same_by (fun x => x) m m' -> (forall x, same_by (fun x => x) (k x) (k' x)) -> same_by (fun x => x) (bindr m k) (bindr m' k').
Proof. intros Hm Hk y H. destruct m as [[x|x]| | |]; try discriminate; rewrite (Hm _ eq_refl); cbn [bindr] in *; [apply Hk|]; exact H. Qed.

Section Use.
Variables e e' : env.
Variable g : val -> val.
Variable gi : aiter -> aiter.
Hypothesis S : seen_through e e' g gi.
Local Notation id := (fun x => x).

Lemma us_new w v : same_by g (de_new e w v) (de_new e' w (g v)).
Proof.
  unfold de_new. eapply sb_bind; [apply (se_type _ _ _ _ S)|]. intros t. destruct (vtype_eqb t TyPointer); [apply (se_deref _ _ _ _ S)|apply sb_ret; reflexivity].
Qed.
Lemma us_any k v : same_by id (de_any e k v) (de_any e' k (g v)).
Proof.
  unfold de_any. rewrite (se_sk _ _ _ _ S). eapply sb_bind; [apply (se_type _ _ _ _ S)|]. intros t. destruct t; try apply sb_refl; try destruct k;
    (eapply sb_bind; [first [apply (se_bool _ _ _ _ S)|apply (se_short _ _ _ _ S)|apply (se_ushort _ _ _ _ S)|apply (se_int _ _ _ _ S)|apply (se_uint _ _ _ _ S)
       |apply (se_float _ _ _ _ S)|apply (se_double _ _ _ _ S)|apply (se_str _ _ _ _ S)|apply (se_data _ _ _ _ S)]|intros ?; apply sb_refl]).
Qed.
Lemma us_next it : same_by (fun r => (option_map g (fst r), gi (snd r))) (next_value e it) (next_value e' (gi it)).
Proof.
  unfold next_value. eapply sb_bind; [apply (se_next _ _ _ _ S)|]. intros [x it1]. cbn [fst snd]. destruct x as [x|]; cbn [option_map]; [|apply sb_ret; reflexivity].
  rewrite (se_width _ _ _ _ S). eapply sb_bind; [apply us_new|]. intros v'. apply sb_ret. reflexivity.
Qed.
Lemma us_seq_all f f' : (forall v, same_by id (f v) (f' (g v))) -> forall k k' it, (k <= k')%nat ->
  same_by id (seq_all f e k it) (seq_all f' e' k' (gi it)).
Proof.
  intros Hf. induction k as [|k IH]; intros k' it Hk; cbn [seq_all]; [apply sb_div|]. destruct k' as [|k']; [lia|]. cbn [seq_all].
  eapply sb_bind; [apply us_next|]. intros [x it1]. cbn [fst snd]. destruct x as [x|]; cbn [option_map]; [|apply sb_refl].
  apply sb_bindr; [apply Hf|]. intros y. apply sb_bindr; [apply IH; lia|]. intros ys. apply sb_refl.
Qed.
Lemma us_seq_n f f' : (forall v t, same_by id (f v t) (f' (g v) t)) -> forall ts it,
  same_by id (seq_n f e ts it) (seq_n f' e' ts (gi it)).
Proof.
  intros Hf. induction ts as [|t ts IH]; intros it; cbn [seq_n]; [apply sb_refl|].
  eapply sb_bind; [apply us_next|]. intros [x it1]. cbn [fst snd]. destruct x as [x|]; cbn [option_map]; [|apply sb_refl].
  apply sb_bindr; [apply Hf|]. intros y. apply sb_bindr; [apply IH|]. intros ys. apply sb_refl.
Qed.
Lemma us_map_all fk fk' fv fv' : (forall v, same_by id (fk v) (fk' (g v))) -> (forall v, same_by id (fv v) (fv' (g v))) ->
  forall k k' it, (k <= k')%nat -> same_by id (map_all fk fv e k it) (map_all fk' fv' e' k' (gi it)).
Proof.
  intros Hk Hv. induction k as [|k IH]; intros k' it Hkk; cbn [map_all]; [apply sb_div|]. destruct k' as [|k']; [lia|]. cbn [map_all].
  eapply sb_bind; [apply us_next|]. intros [x it1]. cbn [fst snd]. destruct x as [x|]; cbn [option_map]; [|apply sb_refl].
  apply sb_bindr; [apply Hk|]. intros y. eapply sb_bind; [apply us_next|]. intros [z it2]. cbn [fst snd]. destruct z as [z|]; cbn [option_map]; [|apply sb_refl].
  apply sb_bindr; [apply Hv|]. intros u. apply sb_bindr; [apply IH; lia|]. intros ys. apply sb_refl.
Qed.
Lemma us_ignore : forall f k v, same_by id (ignore_any f e k v) (ignore_any f e' k (g v)).
Proof.
  pose proof (se_length _ _ _ _ S) as Hl.
  induction f as [|f IH]; intros k v; cbn [ignore_any]; [apply sb_div|]. apply sb_bindr; [apply us_any|]. intros ev.
  destruct ev; try apply sb_refl; (eapply sb_bind; [apply (se_iter _ _ _ _ S)|]; intros it; apply sb_bindr; [|intros ?; apply sb_refl]).
  - apply us_seq_all; [intros; apply IH|lia].
  - apply us_map_all; [intros; apply IH|intros; apply IH|lia].
Qed.
Lemma us_struct G f f' i i' fs : (forall v t, same_by id (f v t) (f' (g v) t)) -> (forall v, same_by id (i v) (i' (g v))) ->
  forall k k' it acc, (k <= k')%nat -> same_by id (struct_loop G f i e fs k it acc) (struct_loop G f' i' e' fs k' (gi it) acc).
Proof.
  intros Hf Hi. induction k as [|k IH]; intros k' it acc Hk; cbn [struct_loop]; [apply sb_div|]. destruct k' as [|k']; [lia|]. cbn [struct_loop].
  eapply sb_bind; [apply us_next|]. intros [x it1]. cbn [fst snd]. destruct x as [x|]; cbn [option_map]; [|apply sb_refl].
  apply sb_bindr; [apply us_any|]. intros ev. apply sb_bindr; [apply sb_refl|]. intros name.
  destruct (match name with Some s => lookup s acc | None => None end); [apply sb_refl|].
  eapply sb_bind; [apply us_next|]. intros [z it2]. cbn [fst snd]. destruct z as [z|]; cbn [option_map]; [|apply sb_refl].
  assert (Hig : same_by id (_ <-? i z ;; struct_loop G f i e fs k it2 acc) (_ <-? i' (g z) ;; struct_loop G f' i' e' fs k' (gi it2) acc)).
  { apply sb_bindr; [apply Hi|]. intros _. apply IH. lia. }
  destruct name as [s|]; [|exact Hig]. destruct (lookup s fs) as [t|]; [|exact Hig].
  apply sb_bindr; [apply Hf|]. intros y. apply IH. lia.
Qed.
Lemma us_debug v : same_by id (debug_fmt e v) (debug_fmt e' (g v)).
Proof. unfold debug_fmt. eapply sb_bind; [apply (se_read _ _ _ _ S)|]. intros x. apply sb_refl. Qed.
Lemma us_array v : same_by (option_map g) (as_array e v) (as_array e' (g v)).
Proof. unfold as_array. eapply sb_bind; [apply (se_type _ _ _ _ S)|]. intros t. apply sb_ret. destruct (vtype_eqb _ _); reflexivity. Qed.
Lemma us_dict v : same_by (option_map g) (as_dict e v) (as_dict e' (g v)).
Proof. unfold as_dict. eapply sb_bind; [apply (se_type _ _ _ _ S)|]. intros t. apply sb_ret. destruct (vtype_eqb _ _); reflexivity. Qed.
Lemma us_dict_len v : same_by id (dict_len e v) (dict_len e' (g v)).
Proof. unfold dict_len. eapply sb_bind; [apply (se_len _ _ _ _ S)|]. intros x. apply sb_refl. Qed.
Lemma us_contains v k : same_by id (dict_contains e v k) (dict_contains e' (g v) k).
Proof. unfold dict_contains. eapply sb_bind; [apply (se_dict_get _ _ _ _ S)|]. intros x. apply sb_ret. destruct x; reflexivity. Qed.
Lemma us_contains_sk v k t : same_by id (dict_contains_sk e v k t) (dict_contains_sk e' (g v) k t).
Proof. unfold dict_contains_sk. eapply sb_bind; [apply (se_dict_get_sk _ _ _ _ S)|]. intros x. apply sb_ret. destruct x; reflexivity. Qed.

Lemma us_debug_err {A} v (x : de_error) : same_by id (_ <- debug_fmt e v ;; Ret (@Err A _ x)) (_ <- debug_fmt e' (g v) ;; Ret (@Err A _ x)).
Proof. eapply sb_bind; [apply us_debug|]. intros _. apply sb_refl. Qed.

Lemma us_de G : forall f k v t, same_by id (de G f e k v t) (de G f e' k (g v) t).
Proof.
  pose proof (se_length _ _ _ _ S) as Hl.
  induction f as [|f IH]; intros k v t; cbn [de]; [apply sb_div|]. rewrite (se_sk _ _ _ _ S). cbn zeta.
  assert (Hall : forall b l, same_by id
     ((fix all (l : list (list Z * sty)) : outcome bool :=
        match l with
        | [] => Ret true
        | f0 :: l' =>
            c <- match e_sk e with Some tb => dict_contains_sk e b (fst f0) tb | None => dict_contains e b (fst f0) end ;;
            if c then all l' else Ret false
        end) l)
     ((fix all (l : list (list Z * sty)) : outcome bool :=
        match l with
        | [] => Ret true
        | f0 :: l' =>
            c <- match e_sk e with Some tb => dict_contains_sk e' (g b) (fst f0) tb | None => dict_contains e' (g b) (fst f0) end ;;
            if c then all l' else Ret false
        end) l)).
  { intros b. induction l as [|f0 l IHl]; [apply sb_refl|]. eapply (sb_bind id).
    - destruct (e_sk e); [apply us_contains_sk|apply us_contains].
    - intros c. destruct c; [exact IHl|apply sb_refl]. }
  assert (Hn : forall ts it, same_by id (seq_n (fun x t => de G f e false x t) e ts it) (seq_n (fun x t => de G f e' false x t) e' ts (gi it)))
    by (intros; apply us_seq_n; intros; apply IH).
  assert (Hsl : forall t it, same_by id (seq_all (fun x => de G f e false x t) e (Datatypes.S (Datatypes.S (length (e_data e)))) it)
                                        (seq_all (fun x => de G f e' false x t) e' (Datatypes.S (Datatypes.S (length (e_data e')))) (gi it)))
    by (intros; apply us_seq_all; [intros; apply IH|lia]).
  assert (Hst : forall fs it, same_by id (struct_loop G (fun x t => de G f e false x t) (ignore_any f e false) e fs (Datatypes.S (Datatypes.S (length (e_data e)))) it [])
                             (struct_loop G (fun x t => de G f e' false x t) (ignore_any f e' false) e' fs (Datatypes.S (Datatypes.S (length (e_data e')))) (gi it) []))
    by (intros; apply us_struct; [intros; apply IH|intros; apply us_ignore|lia]).
  destruct t.
  all: try (apply sb_bindr; [apply us_any|]; intros ev;
            destruct ev; try apply sb_refl;
            (eapply sb_bind; [apply (se_iter _ _ _ _ S)|]; intros it; apply sb_bindr; [first [apply Hn|apply Hsl]|]; intros l; apply sb_refl)).
  - eapply sb_bind; [apply (se_type _ _ _ _ S)|]. intros vt. destruct vt; try apply sb_refl; (apply sb_bindr; [apply IH|]; intros x; apply sb_refl).
  - eapply sb_bind; [apply us_array|]. intros [a|]; cbn [option_map]; [|apply sb_refl].
    eapply sb_bind; [apply (se_iter _ _ _ _ S)|]. intros it. apply sb_bindr; [apply Hsl|]. intros l. apply sb_refl.
  - eapply sb_bind; [apply us_dict|]. intros [a|]; cbn [option_map]; [|apply sb_refl].
    eapply sb_bind; [apply (se_iter _ _ _ _ S)|]. intros it. apply sb_bindr; [|intros l; apply sb_refl]. apply us_map_all; [intros; apply IH|intros; apply IH|lia].
  - eapply sb_bind; [apply us_dict|]. intros [a|]; cbn [option_map]; [|apply sb_refl].
    eapply sb_bind; [apply (se_iter _ _ _ _ S)|]. intros it. apply sb_bindr; [apply Hst|]. intros l. apply sb_refl.
  - eapply sb_bind; [apply us_array|]. intros [a|]; cbn [option_map]; [|apply sb_refl].
    eapply sb_bind; [apply (se_wide _ _ _ _ S)|]. intros wide. eapply sb_bind; [apply (se_get _ _ _ _ S)|]. intros x0.
    eapply sb_bind; [apply us_debug|]. intros u0. destruct x0 as [x0|]; cbn [option_map]; [|apply sb_refl].
    eapply sb_bind; [apply us_new|]. intros x0'. apply sb_bindr; [apply us_any|]. intros ev. apply sb_bindr; [apply sb_refl|]. intros name.
    destruct name as [s|]; [|apply sb_refl]. cbn zeta. destruct (lookup s variants) as [vt|]; [|apply sb_refl].
    destruct vt.
    + eapply sb_bind; [apply (se_len _ _ _ _ S)|]. intros n. destruct (n =? 1); [apply sb_refl|]. apply us_debug_err.
    + eapply sb_bind; [apply (se_get _ _ _ _ S)|]. intros x1. eapply sb_bind; [apply us_debug|]. intros u1. destruct x1 as [x1|]; cbn [option_map]; [|apply sb_refl].
      eapply sb_bind; [apply us_new|]. intros x1'. apply sb_bindr; [apply IH|]. intros y. apply sb_refl.
    + eapply sb_bind; [apply (se_get _ _ _ _ S)|]. intros x1. eapply sb_bind; [apply us_debug|]. intros u1. destruct x1 as [x1|]; cbn [option_map]; [|apply sb_refl].
      eapply sb_bind; [apply us_array|]. intros [b|]; cbn [option_map]; [|apply us_debug_err].
      eapply sb_bind; [apply (se_len _ _ _ _ S)|]. intros n. destruct (n =? _); [|apply us_debug_err].
      eapply sb_bind; [apply us_new|]. intros x1'. eapply sb_bind; [apply (se_iter _ _ _ _ S)|]. intros it. apply sb_bindr; [apply Hn|]. intros l. apply sb_refl.
    + eapply sb_bind; [apply (se_get _ _ _ _ S)|]. intros x1. eapply sb_bind; [apply us_debug|]. intros u1. destruct x1 as [x1|]; cbn [option_map]; [|apply sb_refl].
      eapply sb_bind; [apply us_dict|]. intros [b|]; cbn [option_map]; [|apply us_debug_err].
      eapply sb_bind; [apply us_dict_len|]. intros n.
      eapply (sb_bind id); [destruct (n =? _); [apply Hall|apply sb_refl]|]. intros ok. destruct ok; [|apply us_debug_err].
      eapply sb_bind; [apply us_new|]. intros x1'. eapply sb_bind; [apply (se_iter _ _ _ _ S)|]. intros it. apply sb_bindr; [apply Hst|]. intros l. apply sb_refl.
  - apply IH.
Qed.
Lemma us_de_bytes G f t r : from_bytes e = Ret (Ok r) -> from_bytes e' = Ret (Ok (g r)) ->
  same_by id (de_from_bytes G f e t) (de_from_bytes G f e' t).
Proof.
  intros H H'. unfold de_from_bytes. rewrite H, H'. cbn [bind]. eapply sb_bind; [apply us_new|]. intros v'. apply us_de.
Qed.

(* key tables *)
Lemma us_state_loop ua : forall f f' it t, (f <= f')%nat -> same_by id (state_loop f ua e it t) (state_loop f' ua e' (gi it) t).
Proof.
  induction f as [|f IH]; intros f' it t Hf; cbn [state_loop]; [apply sb_div|]. destruct f' as [|f']; [lia|]. cbn [state_loop].
  eapply sb_bind; [apply (se_next _ _ _ _ S)|]. intros [x it1]. cbn [fst snd]. destruct x as [x|]; cbn [option_map]; [|apply sb_refl].
  eapply sb_bind; [apply (se_type _ _ _ _ S)|]. intros ty. rewrite (se_dbg _ _ _ _ S). destruct (_ && _); [apply sb_panic|].
  eapply sb_bind; [apply (se_str _ _ _ _ S)|]. intros k. destruct (encode_and_insert ua t k) as [t' [n|]]; [apply IH; lia|apply sb_refl].
Qed.
Lemma us_state_value ua v : same_by id (from_state_value ua e v) (from_state_value ua e' (g v)).
Proof.
  unfold from_state_value. eapply sb_bind; [apply us_array|]. intros [a|]; cbn [option_map]; [|apply sb_refl].
  eapply sb_bind; [apply (se_iter _ _ _ _ S)|]. intros it. apply us_state_loop. pose proof (se_length _ _ _ _ S). lia.
Qed.

(* copies *)
Lemma us_slot d : forall f f' v w, (f <= f')%nat -> same_by id (slot_from_fleece f d e v w) (slot_from_fleece f' d e' (g v) w).
Proof.
  induction f as [|f IH]; intros f' v w Hf; cbn [slot_from_fleece]; [apply sb_div|]. destruct f' as [|f']; [lia|]. cbn [slot_from_fleece].
  rewrite (se_sk _ _ _ _ S). eapply sb_bind; [apply (se_type _ _ _ _ S)|]. intros t. destruct t; try apply sb_refl;
   try (eapply sb_bind; [first [apply (se_bool _ _ _ _ S)|apply (se_short _ _ _ _ S)|apply (se_ushort _ _ _ _ S)|apply (se_int _ _ _ _ S)|apply (se_uint _ _ _ _ S)
       |apply (se_float _ _ _ _ S)|apply (se_double _ _ _ _ S)|apply (se_str _ _ _ _ S)|apply (se_data _ _ _ _ S)]|intros ?; apply sb_refl]).
  - eapply sb_bind; [apply (se_wide _ _ _ _ S)|]. intros wide. eapply sb_bind; [apply (se_elems _ _ _ _ S)|]. intros vs.
    eapply sb_bind; [apply (sb_mapM g id); intros x; apply IH; lia|]. intros l. rewrite map_same. apply sb_refl.
  - eapply sb_bind; [apply (se_wide _ _ _ _ S)|]. intros wide. eapply sb_bind; [apply (se_dict_elems _ _ _ _ S)|]. intros vs.
    eapply sb_bind; [apply (sb_mapM (fun kv => (fst kv, g (snd kv))) id); intros x; eapply sb_bind; [apply IH; lia|intros s; apply sb_refl]|].
    intros l. rewrite map_same. apply sb_refl.
  - eapply sb_bind; [apply (se_deref _ _ _ _ S)|]. intros x. apply IH. lia.
Qed.
Lemma fuel_use : (fuel_of e <= fuel_of e')%nat.
Proof. unfold fuel_of. pose proof (se_length _ _ _ _ S). lia. Qed.
Lemma us_dict_copy d v sk : same_by id (dict_copy d e v sk) (dict_copy d e' (g v) sk).
Proof.
  unfold dict_copy. eapply sb_bind; [apply (se_wide _ _ _ _ S)|]. intros wide. eapply sb_bind; [apply (se_dict_elems _ _ _ _ S)|]. intros vs.
  eapply sb_bind; [apply (sb_mapM (fun kv => (fst kv, g (snd kv))) id); intros x; eapply sb_bind; [apply us_slot; pose proof fuel_use; lia|intros s; apply sb_refl]|].
  intros l. rewrite map_same. apply sb_refl.
Qed.
Lemma us_array_copy d v : same_by id (array_copy d e v) (array_copy d e' (g v)).
Proof. apply us_slot, fuel_use. Qed.

Lemma us_eseq r r' k k' : same_by id r r' -> (forall x, same_by id (k x) (k' x)) -> same_by id (eseq r k) (eseq r' k').
Proof. intros Hr Hk. unfold eseq. eapply sb_bind; [exact Hr|]. intros [x res]. destruct res; [apply Hk|apply sb_refl]. Qed.
Lemma us_for_each {A B} (h : A -> B) f f' : (forall x a, same_by id (f x a) (f' x (h a))) -> forall l x, same_by id (for_each f x l) (for_each f' x (map h l)).
Proof.
  intros Hf. induction l as [|a l IH]; intros x; cbn [for_each map]; [apply sb_refl|]. apply us_eseq; [apply Hf|]. intros y. apply IH.
Qed.
Lemma us_write_fleece c : forall f f' en v, (f <= f')%nat -> same_by id (write_fleece f c en e v) (write_fleece f' c en e' (g v)).
Proof.
  induction f as [|f IH]; intros f' en v Hf; cbn [write_fleece]; [apply sb_div|]. destruct f' as [|f']; [lia|]. cbn [write_fleece].
  eapply sb_bind; [apply (se_type _ _ _ _ S)|]. intros t. cbn zeta.
  destruct (en_stack en); destruct t; cbn [vtype_eqb orb]; try apply sb_refl;
   try (eapply sb_bind; [first [apply (se_bool _ _ _ _ S)|apply (se_short _ _ _ _ S)|apply (se_ushort _ _ _ _ S)|apply (se_int _ _ _ _ S)|apply (se_uint _ _ _ _ S)
       |apply (se_float _ _ _ _ S)|apply (se_double _ _ _ _ S)|apply (se_str _ _ _ _ S)|apply (se_data _ _ _ _ S)]|intros ?; apply sb_refl]).
  all: try (eapply sb_bind; [apply (se_len _ _ _ _ S)|]; intros n; apply us_eseq; [apply sb_refl|]; intros e1;
    eapply sb_bind; [apply (se_elems _ _ _ _ S)|]; intros vs; apply us_eseq; [|intros e2; apply sb_refl];
    apply us_for_each; intros x a; apply IH; lia).
  all: try (apply us_eseq; [apply sb_refl|]; intros e1;
    eapply sb_bind; [apply (se_dict_elems _ _ _ _ S)|]; intros vs; apply us_eseq; [|intros e2; apply sb_refl];
    apply us_for_each; intros x a; apply us_eseq; [apply sb_refl|]; intros e2; apply IH; lia).
  eapply sb_bind; [apply (se_deref _ _ _ _ S)|]. intros x. apply IH. lia.
Qed.
End Use.

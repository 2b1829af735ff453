(** What a debug build returns, a release build returns. *)
From Verif Require Import Prelude Varint SharedKeys Decode Read Encodable Encoder BuildSpec.

Lemma ag_refl {A} (m : outcome A) : agrees m m.
Proof. intros x H. exact H. Qed.
Lemma ag_bind {A B} (m m' : outcome A) (k k' : A -> outcome B) :
  agrees m m' -> (forall x, agrees (k x) (k' x)) -> agrees (bind m k) (bind m' k').
Proof.
  intros Hm Hk y H. destruct m as [x| | |]; try discriminate. rewrite (Hm x eq_refl). cbn [bind] in *. apply Hk. exact H.
Qed.
Lemma ag_bindr {A B E} (m m' : outcome (result A E)) (k k' : A -> outcome (result B E)) :
  agrees m m' -> (forall x, agrees (k x) (k' x)) -> agrees (bindr m k) (bindr m' k').
Proof.
  intros Hm Hk y H. destruct m as [[x|x]| | |]; try discriminate; rewrite (Hm _ eq_refl); cbn [bindr] in *; [apply Hk|]; exact H.
Qed.
Lemma ag_panic {A} (m : outcome A) : agrees Panic m.
Proof. intros x H. discriminate. Qed.
Lemma ag_eq {A} (m m' : outcome A) : m' = m -> agrees m m'.
Proof. intros ->. apply ag_refl. Qed.
Lemma ag_mapM {A B} (f f' : A -> outcome B) l : (forall x, agrees (f x) (f' x)) -> agrees (mapM f l) (mapM f' l).
Proof.
  intros Hf. induction l as [|x l IH]; cbn [mapM]; [apply ag_refl|].
  apply ag_bind; [apply Hf|]. intros y. apply ag_bind; [exact IH|]. intros ys. apply ag_refl.
Qed.

Create HintDb builds.
Ltac ag := repeat (first
  [ solve [auto 3 with builds nocore]
  | apply ag_panic
  | match goal with
    | |- agrees ?m ?m => apply ag_refl
    | |- agrees (bind _ _) (bind _ _) => apply ag_bind; [|intros ?]
    | |- agrees (bindr _ _) (bindr _ _) => apply ag_bindr; [|intros ?]
    | |- agrees (mapM _ _) (mapM _ _) => apply ag_mapM; intros ?
    | |- agrees (match ?x with _ => _ end) (match ?x with _ => _ end) => destruct x
    | |- agrees (match ?x with _ => _ end) _ => destruct x
    end ]; cbn beta iota zeta).

Lemma ag_uadd d a b : agrees (usize_add d a b) (usize_add false a b).
Proof. unfold usize_add. ag. Qed.
Lemma ag_umul d a b : agrees (usize_mul d a b) (usize_mul false a b).
Proof. unfold usize_mul. ag. Qed.
Lemma ag_usub d a b : agrees (usize_sub d a b) (usize_sub false a b).
Proof. unfold usize_sub. ag. Qed.
Lemma ag_add32 d a b : agrees (u32_add d a b) (u32_add false a b).
Proof. unfold u32_add. ag. Qed.
Lemma ag_sub32 d a b : agrees (u32_sub d a b) (u32_sub false a b).
Proof. unfold u32_sub. ag. Qed.
Lemma ag_shl d a b : agrees (u64_shl d a b) (u64_shl false a b).
Proof. unfold u64_shl. ag. Qed.
#[export] Hint Resolve ag_uadd ag_umul ag_usub ag_add32 ag_sub32 ag_shl : builds.

Lemma ag_varint_loop d get len n : forall i sh res, agrees (varint_read_loop d get len n i sh res) (varint_read_loop false get len n i sh res).
Proof. induction n as [|n IH]; intros i sh res; cbn [varint_read_loop]; ag. Qed.
#[export] Hint Resolve ag_varint_loop : builds.
Lemma ag_varint d get len : agrees (varint_read d get len) (varint_read false get len).
Proof. unfold varint_read. ag. Qed.
#[export] Hint Resolve ag_varint : builds.

(* ---------- reading ---------- *)

Section Read.
Variable e : env.
Notation r := (release e).

(** The readers without arithmetic are the same functions. *)
Lemma ag_type v : agrees (value_type e v) (value_type r v). Proof. exact (ag_refl _). Qed.
Lemma ag_vbyte v i : agrees (vbyte e v i) (vbyte r v i). Proof. exact (ag_refl _). Qed.
Lemma ag_short v : agrees (get_short e v) (get_short r v). Proof. exact (ag_refl _). Qed.
Lemma ag_offset v w : agrees (get_offset e v w) (get_offset r v w). Proof. exact (ag_refl _). Qed.
Lemma ag_content v : agrees (slice_content e v) (slice_content r v). Proof. exact (ag_refl _). Qed.
Lemma ag_wide v : agrees (arr_is_wide e v) (arr_is_wide r v). Proof. exact (ag_refl _). Qed.
Lemma ag_to_int v : agrees (to_int e v) (to_int r v). Proof. exact (ag_refl _). Qed.
Lemma ag_to_uint v : agrees (to_unsigned_int e v) (to_unsigned_int r v). Proof. exact (ag_refl _). Qed.
Lemma ag_to_short v : agrees (to_short e v) (to_short r v). Proof. exact (ag_refl _). Qed.
Lemma ag_to_ushort v : agrees (to_unsigned_short e v) (to_unsigned_short r v). Proof. exact (ag_refl _). Qed.
Lemma ag_to_double v : agrees (to_double e v) (to_double r v). Proof. exact (ag_refl _). Qed.
Lemma ag_to_float v : agrees (to_float e v) (to_float r v). Proof. exact (ag_refl _). Qed.
Lemma ag_to_bool v : agrees (to_bool e v) (to_bool r v). Proof. exact (ag_refl _). Qed.
Hint Resolve ag_type ag_vbyte ag_short ag_offset ag_content ag_wide ag_to_int ag_to_uint ag_to_short ag_to_ushort ag_to_double ag_to_float ag_to_bool : builds.


Lemma ag_varint_at v off : agrees (varint_at e v off) (varint_at r v off).
Proof. unfold varint_at. change (e_dbg r) with false. ag. Qed.
Hint Resolve ag_varint_at : builds.
Lemma ag_get_data v : agrees (get_data e v) (get_data r v).
Proof. unfold get_data. change (e_dbg r) with false. ag. Qed.
Hint Resolve ag_get_data : builds.
Lemma ag_to_data v : agrees (to_data e v) (to_data r v).
Proof. unfold to_data. ag. Qed.
Lemma ag_to_str v : agrees (to_str e v) (to_str r v).
Proof. unfold to_str. ag. Qed.
Lemma ag_required v : agrees (required_size e v) (required_size r v).
Proof. unfold required_size. ag. Qed.
Hint Resolve ag_to_data ag_to_str ag_required : builds.
Lemma ag_from_raw p n : agrees (from_raw e p n) (from_raw r p n).
Proof. unfold from_raw. ag. Qed.
Hint Resolve ag_from_raw : builds.
Lemma ag_deref_checked f : forall v w, agrees (deref_checked f e v w) (deref_checked f r v w).
Proof. induction f as [|f IH]; intros v w; cbn [deref_checked]; [apply ag_refl|]. change (ptr_target r) with (ptr_target e). ag. Qed.
Lemma ag_deref_unchecked f : forall v w, agrees (deref_unchecked f e v w) (deref_unchecked f r v w).
Proof. induction f as [|f IH]; intros v w; cbn [deref_unchecked]; [apply ag_refl|]. change (ptr_target r) with (ptr_target e). change (e_dbg r) with false. cbn [andb]. ag. Qed.
Hint Resolve ag_deref_checked ag_deref_unchecked : builds.
Lemma ag_resolve v w : agrees (resolve e v w) (resolve r v w).
Proof. unfold resolve. change (fuel_of r) with (fuel_of e). ag. Qed.
Hint Resolve ag_resolve : builds.
Lemma ag_len v : agrees (arr_len e v) (arr_len r v).
Proof. unfold arr_len. change (e_dbg r) with false. ag. Qed.
Lemma ag_first_pos v : agrees (first_pos e v) (first_pos r v).
Proof. unfold first_pos. ag. Qed.
Hint Resolve ag_len ag_first_pos : builds.
Lemma ag_get_unchecked v i : agrees (arr_get_unchecked e v i) (arr_get_unchecked r v i).
Proof. unfold arr_get_unchecked. change (e_dbg r) with false. ag. Qed.
Hint Resolve ag_get_unchecked : builds.
Lemma ag_get v i : agrees (arr_get e v i) (arr_get r v i).
Proof. unfold arr_get. ag. Qed.
Hint Resolve ag_get : builds.
Lemma ag_index v i : agrees (arr_index e v i) (arr_index r v i).
Proof. unfold arr_index. ag. Qed.
Lemma ag_empty v : agrees (arr_is_empty e v) (arr_is_empty r v).
Proof. unfold arr_is_empty. ag. Qed.
Lemma ag_iter v : agrees (arr_iter e v) (arr_iter r v).
Proof. unfold arr_iter. ag. Qed.
Lemma ag_next it : agrees (iter_next e it) (iter_next r it).
Proof. unfold iter_next. ag. Qed.
Hint Resolve ag_index ag_empty ag_iter ag_next : builds.
Lemma ag_collect f : forall it, agrees (iter_collect f e it) (iter_collect f r it).
Proof. induction f as [|f IH]; intros it; cbn [iter_collect]; ag. Qed.
Hint Resolve ag_collect : builds.
Lemma ag_elems v : agrees (arr_elems e v) (arr_elems r v).
Proof. unfold arr_elems. change (e_data r) with (e_data e). ag. Qed.
Hint Resolve ag_elems : builds.
Lemma ag_loop (s s' : Z -> dres unit) : (forall x, agrees (s x) (s' x)) -> forall k i n cur w, agrees (elems_loop s k i n cur w) (elems_loop s' k i n cur w).
Proof. intros Hs. induction k as [|k IH]; intros i n cur w; cbn [elems_loop]; ag. Qed.
Lemma ag_validate f : forall a b v d, agrees (validate f e a b v d) (validate f r a b v d).
Proof.
  induction f as [|f IH]; intros a b v d; cbn [validate]; [apply ag_refl|].
  change (e_dbg r) with false. change (e_base r) with (e_base e). change (e_data r) with (e_data e). change (fuel_of r) with (fuel_of e).
  ag. all: apply ag_loop; intros cur; ag.
Qed.
Hint Resolve ag_validate : builds.
Lemma ag_find_root : agrees (find_root e) (find_root r).
Proof. unfold find_root. change (e_data r) with (e_data e). change (fuel_of r) with (fuel_of e). ag. Qed.
Hint Resolve ag_find_root : builds.
Lemma ag_from_bytes : agrees (from_bytes e) (from_bytes r).
Proof. unfold from_bytes. change (e_data r) with (e_data e). change (fuel_of r) with (fuel_of e). ag. Qed.
Lemma ag_from_bytes_unchecked : agrees (from_bytes_unchecked e) (from_bytes_unchecked r).
Proof. unfold from_bytes_unchecked. change (e_data r) with (e_data e). change (fuel_of r) with (fuel_of e). ag. Qed.
Hint Resolve ag_from_bytes ag_from_bytes_unchecked : builds.

(* dicts *)
Lemma ag_dict_len v : agrees (dict_len e v) (dict_len r v).
Proof. unfold dict_len. ag. Qed.
Lemma ag_pair v i : agrees (dict_pair e v i) (dict_pair r v i).
Proof. unfold dict_pair. change (e_dbg r) with false. ag. Qed.
Hint Resolve ag_dict_len ag_pair : builds.
Lemma ag_cmp k v w : agrees (dict_key_cmp e k v w) (dict_key_cmp r k v w).
Proof. unfold dict_key_cmp. change (e_dbg r) with false. change (fuel_of r) with (fuel_of e). cbn [andb]. ag. Qed.
Hint Resolve ag_cmp : builds.
Lemma ag_search f : forall v k a b n, agrees (dict_search f e v k a b n) (dict_search f r v k a b n).
Proof. induction f as [|f IH]; intros v k a b n; cbn [dict_search]; [apply ag_refl|]. ag. Qed.
Hint Resolve ag_search : builds.
Lemma ag_get_key v k : agrees (dict_get_key e v k) (dict_get_key r v k).
Proof. unfold dict_get_key. ag. Qed.
Lemma ag_uses v : agrees (uses_shared_keys e v) (uses_shared_keys r v).
Proof. unfold uses_shared_keys. ag. Qed.
Hint Resolve ag_get_key ag_uses : builds.
Lemma ag_encode_key v k sk : agrees (encode_key e v k sk) (encode_key r v k sk).
Proof. unfold encode_key. change (e_sk r) with (e_sk e). ag. Qed.
Hint Resolve ag_encode_key : builds.
Lemma ag_dict_get v k : agrees (dict_get e v k) (dict_get r v k).
Proof. unfold dict_get. ag. Qed.
Lemma ag_dict_get_sk v k sk : agrees (dict_get_sk e v k sk) (dict_get_sk r v k sk).
Proof. unfold dict_get_sk. ag. Qed.
Hint Resolve ag_dict_get ag_dict_get_sk : builds.
Lemma ag_contains v k : agrees (dict_contains e v k) (dict_contains r v k).
Proof. unfold dict_contains. ag. Qed.
Lemma ag_contains_sk v k sk : agrees (dict_contains_sk e v k sk) (dict_contains_sk r v k sk).
Proof. unfold dict_contains_sk. ag. Qed.
Lemma ag_dict_index v k : agrees (dict_index e v k) (dict_index r v k).
Proof. unfold dict_index. ag. Qed.
Lemma ag_first v : agrees (dict_first e v) (dict_first r v).
Proof. unfold dict_first. ag. Qed.
Lemma ag_dict_next it : agrees (dict_iter_next e it) (dict_iter_next r it).
Proof. unfold dict_iter_next. change (e_sk r) with (e_sk e). ag. Qed.
Hint Resolve ag_contains ag_contains_sk ag_dict_index ag_first ag_dict_next : builds.
Lemma ag_dict_collect f : forall it, agrees (dict_collect f e it) (dict_collect f r it).
Proof. induction f as [|f IH]; intros it; cbn [dict_collect]; ag. Qed.
Hint Resolve ag_dict_collect : builds.
Lemma ag_dict_elems v : agrees (dict_elems e v) (dict_elems r v).
Proof. unfold dict_elems. change (e_data r) with (e_data e). ag. Qed.
Hint Resolve ag_dict_elems : builds.
Lemma ag_read_tree f : forall v, agrees (read_tree f e v) (read_tree f r v).
Proof. induction f as [|f IH]; intros v; cbn [read_tree]; [apply ag_refl|]. ag. Qed.
Lemma ag_read_doc v : agrees (read_doc e v) (read_doc r v).
Proof. exact (ag_read_tree _ v). Qed.
End Read.
#[export] Hint Resolve ag_type ag_vbyte ag_short ag_offset ag_content ag_wide ag_to_int ag_to_uint ag_to_short ag_to_ushort ag_to_double ag_to_float ag_to_bool
  ag_varint_at ag_get_data ag_to_data ag_to_str ag_required ag_from_raw ag_deref_checked ag_deref_unchecked ag_resolve ag_len ag_first_pos ag_get_unchecked ag_get
  ag_index ag_empty ag_iter ag_next ag_collect ag_elems ag_validate ag_find_root ag_from_bytes ag_from_bytes_unchecked ag_dict_len ag_pair ag_cmp ag_search ag_get_key
  ag_uses ag_encode_key ag_dict_get ag_dict_get_sk ag_contains ag_contains_sk ag_dict_index ag_first ag_dict_next ag_dict_collect ag_dict_elems ag_read_tree ag_read_doc : builds.

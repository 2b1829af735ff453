(** C80: the bytes around a document make no difference; and more of C53. *)
From Coq Require Import ZifyBool.
From Verif Require Import Prelude Lib SharedKeys Decode Read ReadSpec Encodable Encoder Isort SharedKeysState Scopes Ser De Mutable FromScope Alloced Place AroundSpec Around AroundUse Properties_Safety.
Ltac Zify.zify_post_hook ::= Z.div_mod_to_equations.

(** An accepted document of more than two bytes is still accepted, with the same root, when an
    even number of any bytes lies in front of it. *)
Theorem C80_open_partial : forall P e r,
  lenZ P mod 2 = 0 -> lenZ (e_data e) <> 2 ->
  from_bytes e = Ret (Ok r) -> from_bytes (around P [] e) = Ret (Ok (shifted P r)).
Proof. intros P e r Hp Hn H. apply ob_from_bytes; auto. Qed.
Print Assumptions C80_open_partial.

(** With the two put together at any address. *)
Theorem C80_append_partial : forall P D dbg base base' sk r,
  lenZ P mod 2 = 0 -> lenZ D <> 2 ->
  wf_env (mk_env dbg base D sk) -> wf_env (mk_env dbg base' (P ++ D) sk) ->
  from_bytes (mk_env dbg base D sk) = Ret (Ok r) ->
  from_bytes (mk_env dbg base' (P ++ D) sk) = Ret (Ok (shifted P r)) /\
  forall t, read_doc (mk_env dbg base D sk) r = Ret t -> read_doc (mk_env dbg base' (P ++ D) sk) (shifted P r) = Ret t.
Proof.
  intros P D dbg base base' sk r Hp Hn Hw Hw' H.
  assert (Hm : wf_env (moved (mk_env dbg base D sk) (base' + lenZ P))).
  { destruct Hw as (A & B & C), Hw' as (A' & B' & C'). cbn [moved e_base e_data e_dbg e_sk] in *. rewrite lenZ_app in C'.
    pose proof (lenZ_nonneg P). split; [exact A|]. cbn [moved e_base e_data]. lia. }
  pose proof (from_bytes_accepts _ _ Hw Hm r H) as H1.
  assert (He : mk_env dbg base' (P ++ D) sk = around P [] (moved (mk_env dbg base D sk) (base' + lenZ P))).
  { unfold around, moved; cbn [e_dbg e_base e_data e_sk]. rewrite app_nil_r. f_equal. lia. }
  rewrite He. split; [apply ob_from_bytes; auto|].
  intros t Ht. apply (sb_read_doc P [] _ r t). unfold read_doc in *. rewrite fuel_moved, read_tree_moved; assumption.
Qed.
Print Assumptions C80_append_partial.
Example C80_append_example :
  let D := [0x70; 0x01; 0x41; 0x61; 0x00; 0x05; 0x80; 0x03] in
  from_bytes (at4g true D) = Ret (Ok (V 0 6)) /\ read_doc (at4g true D) (V 0 6) = Ret (TDict [([97], TInt 5)]) /\
  from_bytes (at4g true ([0xFF; 0xC0; 0x77; 0xFF] ++ D)) = Ret (Ok (V 4 6)) /\
  read_doc (at4g true ([0xFF; 0xC0; 0x77; 0xFF] ++ D)) (V 4 6) = Ret (TDict [([97], TInt 5)]).
Proof. cbn zeta. repeat apply conj; vm_compute; reflexivity. Qed.

(** Whatever a call returns on a value, it returns when the buffer is part of a larger one,
    whatever the other bytes are.  Any value at all, accepted or not. *)
Theorem C80_scalars : forall P Q e v,
  same (value_type e v) (value_type (around P Q e) (shifted P v)) /\
  same (to_bool e v) (to_bool (around P Q e) (shifted P v)) /\
  same (to_short e v) (to_short (around P Q e) (shifted P v)) /\
  same (to_unsigned_short e v) (to_unsigned_short (around P Q e) (shifted P v)) /\
  same (to_int e v) (to_int (around P Q e) (shifted P v)) /\
  same (to_unsigned_int e v) (to_unsigned_int (around P Q e) (shifted P v)) /\
  same (to_float e v) (to_float (around P Q e) (shifted P v)) /\
  same (to_double e v) (to_double (around P Q e) (shifted P v)) /\
  same (to_str e v) (to_str (around P Q e) (shifted P v)) /\
  same (to_data e v) (to_data (around P Q e) (shifted P v)).
Proof.
  intros P Q e v. repeat apply conj;
    [apply sb_type|apply sb_to_bool|apply sb_to_short|apply sb_to_ushort|apply sb_to_int|apply sb_to_uint|apply sb_to_float|apply sb_to_double|apply sb_to_str|apply sb_to_data].
Qed.
Print Assumptions C80_scalars.
Theorem C80_collections : forall P Q e v,
  same (arr_len e v) (arr_len (around P Q e) (shifted P v)) /\
  (forall i, same_by (option_map (shifted P)) (arr_get e v i) (arr_get (around P Q e) (shifted P v) i)) /\
  same_by (map (shifted P)) (arr_elems e v) (arr_elems (around P Q e) (shifted P v)) /\
  same (dict_len e v) (dict_len (around P Q e) (shifted P v)) /\
  (forall k, same_by (option_map (shifted P)) (dict_get e v k) (dict_get (around P Q e) (shifted P v) k)) /\
  (forall k t, same_by (option_map (shifted P)) (dict_get_sk e v k t) (dict_get_sk (around P Q e) (shifted P v) k t)) /\
  same_by (map (fun kv => (fst kv, shifted P (snd kv)))) (dict_elems e v) (dict_elems (around P Q e) (shifted P v)) /\
  same (read_doc e v) (read_doc (around P Q e) (shifted P v)).
Proof.
  intros P Q e v. repeat apply conj; intros;
    [apply sb_len|apply sb_get|apply sb_elems|apply sb_dict_len|apply sb_dict_get|apply sb_dict_get_sk|apply sb_dict_elems|apply sb_read_doc].
Qed.
Print Assumptions C80_collections.
(** Serde, copies into an encoder and into a mutable collection, and key tables. *)
Theorem C80_uses : forall P Q e v,
  (forall G f t, same (de G f e false v t) (de G f (around P Q e) false (shifted P v) t)) /\
  (forall c en, same (write_fleece (fuel_of e) c en e v) (write_fleece (fuel_of (around P Q e)) c en (around P Q e) (shifted P v))) /\
  (forall dbg, same (array_copy dbg e v) (array_copy dbg (around P Q e) (shifted P v))) /\
  (forall dbg sk, same (dict_copy dbg e v sk) (dict_copy dbg (around P Q e) (shifted P v) sk)) /\
  (forall ua, same (from_state_value ua e v) (from_state_value ua (around P Q e) (shifted P v))).
Proof.
  intros P Q e v. pose proof (seen_around P Q e) as S. repeat apply conj; intros.
  - exact (us_de _ _ _ _ S _ _ _ _ _).
  - exact (us_write_fleece _ _ _ _ S _ _ _ _ _ (fuel_around P Q e)).
  - exact (us_array_copy _ _ _ _ S _ _).
  - exact (us_dict_copy _ _ _ _ S _ _ _).
  - exact (us_state_value _ _ _ _ S _ _).
Qed.
Print Assumptions C80_uses.
Example C80_uses_example :
  let e := at4g true [0x70; 0x01; 0x41; 0x61; 0x00; 0x05; 0x80; 0x03] in
  let a := around [0x01; 0x02; 0x03] [0xFF] e in
  e_data a = [0x01; 0x02; 0x03; 0x70; 0x01; 0x41; 0x61; 0x00; 0x05; 0x80; 0x03; 0xFF] /\
  de (fun _ => YUnit) 5 e false (V 0 6) (YStruct [([97], YInt U8)]) = Ret (Ok (SStruct [([97], SInt U8 5)])) /\
  de (fun _ => YUnit) 5 a false (V 3 6) (YStruct [([97], YInt U8)]) = Ret (Ok (SStruct [([97], SInt U8 5)])) /\
  (r <- write_fleece (fuel_of e) (mk_cfg true (fun _ => false) isort) enc_new e (V 0 6) ;; Ret (snd r)) = Ret (Ok tt) /\
  (r <- array_copy true e (V 0 6) ;; Ret tt) = Ret tt.
Proof. cbn zeta. repeat apply conj; vm_compute; reflexivity. Qed.

(** A document of two bytes, the value alone, is refused as soon as anything lies in front of
    it; and so is every document behind an odd number of bytes. *)
Theorem C80_refuted_two_bytes : exists P e r,
  lenZ P mod 2 = 0 /\ from_bytes e = Ret (Ok r) /\ from_bytes (around P [] e) = Ret (Err RootNotPointer).
Proof. exists [0; 0], (at4g true [0x00; 0x05]), (V 0 2). repeat apply conj; vm_compute; reflexivity. Qed.
Print Assumptions C80_refuted_two_bytes.
Theorem C80_odd : forall P e r,
  lenZ P mod 2 = 1 -> from_bytes e = Ret (Ok r) -> from_bytes (around P [] e) = Ret (Err InputIncorrectlySized).
Proof.
  intros P e r Hp H. unfold from_bytes, find_root in *. cbv zeta in *. rewrite len_around. change (lenZ (@nil Z)) with 0.
  destruct ((lenZ (e_data e) =? 0) || negb (lenZ (e_data e) mod 2 =? 0)) eqn:E; [discriminate|].
  pose proof (lenZ_nonneg P). pose proof (lenZ_nonneg (e_data e)).
  assert (E' : (lenZ P + lenZ (e_data e) + 0 =? 0) || negb ((lenZ P + lenZ (e_data e) + 0) mod 2 =? 0) = true) by lia.
  rewrite E'. reflexivity.
Qed.
Print Assumptions C80_odd.
Example C80_odd_example : from_bytes (at4g true [0x00; 0x05]) = Ret (Ok (V 0 2)).
Proof. vm_compute. reflexivity. Qed.

(* ---------- C53: what is built from a copy ---------- *)

(** Serde and copies give the same wherever the bytes lie. *)
Theorem C53_serde : forall dbg data sk base base' r,
  wf_env (mk_env dbg base data sk) -> wf_env (mk_env dbg base' data sk) ->
  from_bytes (mk_env dbg base data sk) = Ret (Ok r) ->
  forall G f t x, de_from_bytes G f (mk_env dbg base data sk) t = Ret x <-> de_from_bytes G f (mk_env dbg base' data sk) t = Ret x.
Proof.
  intros dbg data sk base base' r H1 H2 H G f t x. pose proof (from_bytes_accepts _ base' H1 H2 r H) as H3.
  split; intros Hx.
  - exact (us_de_bytes _ _ _ _ (seen_moved _ base' H1 H2) G f t r H H3 x Hx).
  - exact (us_de_bytes _ _ _ _ (seen_moved _ base H2 H1) G f t r H3 H x Hx).
Qed.
Print Assumptions C53_serde.
Theorem C53_copied_on : forall dbg data sk base base' v,
  wf_env (mk_env dbg base data sk) -> wf_env (mk_env dbg base' data sk) ->
  let e := mk_env dbg base data sk in let e' := mk_env dbg base' data sk in
  (forall c en x, write_fleece (fuel_of e) c en e v = Ret x <-> write_fleece (fuel_of e') c en e' v = Ret x) /\
  (forall d x, array_copy d e v = Ret x <-> array_copy d e' v = Ret x) /\
  (forall d t x, dict_copy d e v t = Ret x <-> dict_copy d e' v t = Ret x) /\
  (forall ua x, from_state_value ua e v = Ret x <-> from_state_value ua e' v = Ret x).
Proof.
  intros dbg data sk base base' v H1 H2 e e'.
  pose proof (seen_moved e base' H1 H2) as S1. pose proof (seen_moved e' base H2 H1) as S2.
  change (moved e base') with e' in S1. change (moved e' base) with e in S2.
  repeat apply conj; intros; split; intros Hx.
  - exact (us_write_fleece _ _ _ _ S1 c _ _ en v (le_n _) x Hx).
  - exact (us_write_fleece _ _ _ _ S2 c _ _ en v (le_n _) x Hx).
  - exact (us_array_copy _ _ _ _ S1 d v x Hx).
  - exact (us_array_copy _ _ _ _ S2 d v x Hx).
  - exact (us_dict_copy _ _ _ _ S1 d v t x Hx).
  - exact (us_dict_copy _ _ _ _ S2 d v t x Hx).
  - exact (us_state_value _ _ _ _ S1 ua v x Hx).
  - exact (us_state_value _ _ _ _ S2 ua v x Hx).
Qed.
Print Assumptions C53_copied_on.
Example C53_serde_example :
  let D := [0x70; 0x01; 0x41; 0x61; 0x00; 0x05; 0x80; 0x03] in
  de_from_bytes (fun _ => YUnit) 5 (mk_env true 4294967296 D None) (YMap YStr (YInt I64)) = Ret (Ok (SMap [(SStr [97], SInt I64 5)])) /\
  de_from_bytes (fun _ => YUnit) 5 (mk_env true 8589934592 D None) (YMap YStr (YInt I64)) = Ret (Ok (SMap [(SStr [97], SInt I64 5)])).
Proof. cbn zeta. repeat apply conj; vm_compute; reflexivity. Qed.

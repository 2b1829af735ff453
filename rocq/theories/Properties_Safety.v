(** C10, C17-C25, C50: reading arbitrary bytes (src/value/mod.rs, pointer.rs, array.rs,
    dict.rs). *)
From Verif Require Import Prelude Lib SharedKeys Decode Read ReadSpec Safety Navigate.

(** [[7, "xyz", {"ab": 2.0}]] as the encoder writes it. *)
Definition ex_bytes : list Z :=
  [67; 120; 121; 122; 66; 97; 98; 0; 40; 0; 0; 0; 0; 0; 0; 0; 0; 64;
   112; 1; 128; 8; 128; 7; 96; 3; 0; 7; 128; 14; 128; 6; 128; 4].
Definition ex_env (dbg : bool) : env := mk_env dbg 4294967296 ex_bytes None.
Definition at4g (dbg : bool) (bs : list Z) : env := mk_env dbg 4294967296 bs None.

Lemma bytesb bs : forallb (fun b => (0 <=? b) && (b <? 256)) bs = true -> all_bytes bs.
Proof. intros H. apply Forall_forall. intros x Hx. rewrite forallb_forall in H. specialize (H x Hx). unfold is_byte. lia. Qed.
Lemma at4g_wf dbg bs : forallb (fun b => (0 <=? b) && (b <? 256)) bs = true -> lenZ bs < 4294967296 -> wf_env (at4g dbg bs).
Proof. intros H1 H2. split; [apply bytesb; exact H1|]. cbn [at4g e_base e_data]. unfold two63. lia. Qed.

(** Decidable check for [modest]. *)
Definition modestb (e : env) : bool :=
  forallb (fun p => forallb (fun l =>
    match varint_at e (V (Z.of_nat p) (Z.of_nat l)) 2 with Ret (_, x) => x <? 576460752303423488 | _ => true end)
    (seq 0 (S (length (e_data e))))) (seq 0 (S (length (e_data e)))).
Lemma modestb_ok e : modestb e = true -> modest e.
Proof.
  intros H [p l] r x (H1 & H2 & H3) Hx. cbn [v_pos v_len] in *. unfold modestb in H. rewrite forallb_forall in H. unfold lenZ in H3.
  specialize (H (Z.to_nat p)). rewrite in_seq in H. specialize (H ltac:(lia)). rewrite forallb_forall in H.
  specialize (H (Z.to_nat l)). rewrite in_seq in H. specialize (H ltac:(lia)). rewrite !Z2Nat.id in H by lia. rewrite Hx in H. lia.
Qed.

Example ex_env_wf : wf_env (ex_env true) /\ wf_env (ex_env false) /\ modest (ex_env false) /\
  from_bytes (ex_env true) = Ret (Ok (V 24 8)) /\ from_bytes (ex_env false) = Ret (Ok (V 24 8)) /\
  arr_get (ex_env true) (V 24 8) 2 = Ret (Some (V 18 12)) /\
  dict_get (ex_env true) (V 18 12) [97;98] = Ret (Some (V 8 14)) /\
  to_double (ex_env true) (V 8 14) = Ret 4611686018427387904.
Proof.
  split; [apply at4g_wf; vm_compute; reflexivity|]. split; [apply at4g_wf; vm_compute; reflexivity|].
  split; [apply modestb_ok; vm_compute; reflexivity|]. repeat split; vm_compute; reflexivity.
Qed.
Example ex_env_reach : reach (ex_env true) (V 24 8) (V 8 14).
Proof.
  apply reach_step with (V 18 12).
  - apply reach_step with (V 24 8); [apply reach_refl|]. apply st_get with 3 2; try (vm_compute; reflexivity). split; vm_compute; congruence.
  - apply st_dict_get with [97;98]; vm_compute; reflexivity.
Qed.

(* ---------- C17 ---------- *)

(** Release build, no huge counts, and no byte that looks like a string, binary data or an
    external pointer: [from_bytes] returns [Ok] or [Err]. *)
Theorem C17_no_panic_partial : forall e,
  wf_env e -> e_dbg e = false -> modest e -> calm e ->
  exists r, from_bytes e = Ret r.
Proof. exact from_bytes_calm. Qed.
Print Assumptions C17_no_panic_partial.
Example C17_example : exists e, wf_env e /\ e_dbg e = false /\ modest e /\ calm e /\
  from_bytes e = Ret (Ok (V 0 8)).
Proof.
  exists (at4g false [96; 3; 0; 7; 16; 1; 56; 0; 128; 4]). split; [apply at4g_wf; vm_compute; reflexivity|]. split; [reflexivity|].
  split; [apply modestb_ok; vm_compute; reflexivity|]. split; [repeat constructor; lia|vm_compute; reflexivity].
Qed.
(** In general it panics: on a pointer with the external flag, on a string that is longer
    than its slot (both builds), and on arithmetic overflow (debug). *)
Theorem C17_refuted_external : forall dbg, wf_env (at4g dbg [0xC0; 0x01]) /\ from_bytes (at4g dbg [0xC0; 0x01]) = Panic.
Proof. intros dbg. split; [apply at4g_wf; vm_compute; reflexivity|destruct dbg; vm_compute; reflexivity]. Qed.
Print Assumptions C17_refuted_external.
Theorem C17_refuted_string : forall dbg, wf_env (at4g dbg [0x45; 0x00]) /\ from_bytes (at4g dbg [0x45; 0x00]) = Panic.
Proof. intros dbg. split; [apply at4g_wf; vm_compute; reflexivity|destruct dbg; vm_compute; reflexivity]. Qed.
Print Assumptions C17_refuted_string.
Definition huge_narrow : list Z := [0x67;0xFF;0x80;0x80;0x80;0x80;0x80;0x80;0x80;0x80;0x80;0x01;0x80;0x06].
Definition huge_wide : list Z := [0x6F;0xFF;0x80;0x80;0x80;0x80;0x80;0x80;0x80;0x80;0x80;0x01;0x00;0x00;0x80;0x07].
Theorem C17_refuted_overflow : wf_env (at4g true huge_narrow) /\ from_bytes (at4g true huge_narrow) = Panic.
Proof. split; [apply at4g_wf; vm_compute; reflexivity|vm_compute; reflexivity]. Qed.
Print Assumptions C17_refuted_overflow.

(* ---------- C18, C19 ---------- *)

(** Every byte string, at every address from 2 GiB up: no read outside the input.  In release
    builds this needs [checked]: without overflow checks a huge element count gets past the
    bounds check (refuted below). *)
Theorem C18_in_bounds_partial : forall e, wf_env e -> checked e -> from_bytes e <> UB.
Proof. intros e Hwf Hck. exact (proj1 (from_bytes_checked e Hwf Hck)). Qed.
Print Assumptions C18_in_bounds_partial.
Theorem C18_in_bounds_debug : forall base data sk,
  wf_env (mk_env true base data sk) -> from_bytes (mk_env true base data sk) <> UB.
Proof. intros base data sk Hwf. exact (proj1 (from_bytes_checked _ Hwf (or_introl eq_refl))). Qed.
Print Assumptions C18_in_bounds_debug.
Theorem C18_refuted_release : wf_env (at4g false huge_wide) /\ from_bytes (at4g false huge_wide) = UB.
Proof. split; [apply at4g_wf; vm_compute; reflexivity|vm_compute; reflexivity]. Qed.
Print Assumptions C18_refuted_release.

Theorem C19_terminates_partial : forall e, wf_env e -> checked e -> from_bytes e <> Diverge.
Proof. intros e Hwf Hck. exact (proj2 (from_bytes_checked e Hwf Hck)). Qed.
Print Assumptions C19_terminates_partial.
Theorem C19_terminates_debug : forall base data sk,
  wf_env (mk_env true base data sk) -> from_bytes (mk_env true base data sk) <> Diverge.
Proof. intros base data sk Hwf. exact (proj2 (from_bytes_checked _ Hwf (or_introl eq_refl))). Qed.
Print Assumptions C19_terminates_debug.
Example C18_C19_example : checked (ex_env false) /\ checked (at4g false [0xC0; 0x01]) /\ checked (ex_env true) /\
  checked (at4g true huge_wide).
Proof.
  split; [right; left; apply modestb_ok; vm_compute; reflexivity|]. split; [right; left; apply modestb_ok; vm_compute; reflexivity|].
  split; left; reflexivity.
Qed.
(** Release build, 14 bytes: the validation recurses for ever, whatever the stack depth. *)
Theorem C19_refuted_release : wf_env (at4g false huge_narrow) /\
  find_root (at4g false huge_narrow) = Ret (Ok (V 0 12)) /\
  forall depth, validate depth (at4g false huge_narrow) false false (V 0 12) 14 = Diverge.
Proof. exact huge_loops. Qed.
Print Assumptions C19_refuted_release.

(* ---------- C20, C50 ---------- *)

(** From an accepted root (either build), along any navigation path, all calls stay inside
    the input and return after finitely many steps. *)
Theorem C20_navigation_in_bounds : forall e r v,
  wf_env e -> from_bytes e = Ret (Ok r) -> reach e r v -> in_bounds e v.
Proof. intros e r v Hwf Hr Hv. exact (reach_in_bounds e Hwf r v Hr Hv). Qed.
Print Assumptions C20_navigation_in_bounds.
(** Reading the complete document stays inside and terminates. *)
Theorem C20_whole_document : forall e r,
  wf_env e -> from_bytes e = Ret (Ok r) -> read_doc e r <> UB /\ read_doc e r <> Diverge.
Proof. intros e r Hwf Hr. exact (walk_safe e Hwf r Hr). Qed.
Print Assumptions C20_whole_document.

(** Every reachable value lies in the input with all its payload or slots, and there is no
    infinite path of navigation: the accepted value is a finite tree. *)
Theorem C50_reachable_inside : forall e r v,
  wf_env e -> from_bytes e = Ret (Ok r) -> reach e r v ->
  exists n, extent e v = Ret n /\ 2 <= n /\ 0 <= v_pos v /\ v_pos v + n <= lenZ (e_data e).
Proof. intros e r v Hwf Hr Hv. exact (reach_extent e Hwf r v Hr Hv). Qed.
Print Assumptions C50_reachable_inside.
Theorem C50_finite_tree : forall e r,
  wf_env e -> from_bytes e = Ret (Ok r) -> Acc (fun y x => step_to e x y) r.
Proof. intros e r Hwf Hr. exact (root_acc e Hwf r Hr). Qed.
Print Assumptions C50_finite_tree.

(** Each element is stored in its own slot of the collection, or it lies completely before
    that slot. *)
Theorem C50_elements_before_slot : forall e r v,
  wf_env e -> from_bytes e = Ret (Ok r) -> reach e r v ->
  value_type e v = Ret TyArray \/ value_type e v = Ret TyDict ->
  exists wide n fp, arr_is_wide e v = Ret wide /\ arr_len e v = Ret n /\ first_pos e v = Ret fp /\
    forall i x, 0 <= i < n -> arr_get e v i = Ret (Some x) ->
      exists m, extent e x = Ret m /\
        ((x = V (v_pos v + fp + i * width_of wide) (width_of wide) /\ m <= width_of wide) \/
         v_pos x + m <= v_pos v + fp + i * width_of wide).
Proof. intros e r v Hwf Hr Hv. exact (elements_before e Hwf r v Hr Hv). Qed.
Print Assumptions C50_elements_before_slot.

(* ---------- C21 ---------- *)

(** No panic in type, string, data, length, iteration and indexing calls; the numeric
    accessors do not panic either unless the value is a float whose slice is too short. *)
Theorem C21_no_panic_partial : forall e r v,
  wf_env e -> from_bytes e = Ret (Ok r) -> reach e r v ->
  no_panic e v /\
  forall ty, value_type e v = Ret ty -> float_len ty <= v_len v -> numbers_no_panic e v.
Proof. intros e r v Hwf Hr Hv. exact (reach_no_panic e Hwf r v Hr Hv). Qed.
Print Assumptions C21_no_panic_partial.
(** A float behind a pointer to a pointer is such a value: accepted, and [to_double] panics. *)
Theorem C21_refuted : forall dbg, exists e r,
  e_dbg e = dbg /\ wf_env e /\ from_bytes e = Ret (Ok r) /\ to_double e r = Panic /\ to_int e r = Panic.
Proof.
  intros dbg. exists (at4g dbg [0x20; 0; 1; 2; 0x80; 0; 0; 2; 0x80; 2]), (V 0 4). split; [reflexivity|].
  split; [apply at4g_wf; vm_compute; reflexivity|]. destruct dbg; (split; [vm_compute; reflexivity|split; vm_compute; reflexivity]).
Qed.
Print Assumptions C21_refuted.

(* ---------- C22 ---------- *)

Theorem C22_get_partial : forall e r v,
  wf_env e -> from_bytes e = Ret (Ok r) -> reach e r v -> value_type e v = Ret TyArray ->
  exists n, arr_len e v = Ret n /\ 0 <= n /\
    (forall i, 0 <= i < n -> exists x, arr_get e v i = Ret (Some x)) /\
    (forall i, n < i -> arr_get e v i = Ret None).
Proof. intros e r v Hwf Hr Hv. exact (array_get e Hwf r v Hr Hv). Qed.
Print Assumptions C22_get_partial.
(** At [i = len] the result is [Some]: the bytes after the array are taken for an element ... *)
Theorem C22_refuted_at_len : forall dbg, exists e r x,
  e_dbg e = dbg /\ wf_env e /\ from_bytes e = Ret (Ok r) /\ value_type e r = Ret TyArray /\
  arr_len e r = Ret 1 /\ arr_get e r 1 = Ret (Some x).
Proof.
  intros dbg. exists (at4g dbg [0x60; 0x01; 0x00; 0x05; 0x80; 0x02]), (V 0 4), (V 0 4). split; [reflexivity|].
  split; [apply at4g_wf; vm_compute; reflexivity|]. destruct dbg; repeat (split; [vm_compute; reflexivity|]); vm_compute; reflexivity.
Qed.
Print Assumptions C22_refuted_at_len.
(** ... and on a wide array this can read outside the input. *)
Theorem C22_refuted_out_of_bounds : forall dbg, exists e r,
  e_dbg e = dbg /\ wf_env e /\ from_bytes e = Ret (Ok r) /\ value_type e r = Ret TyArray /\
  arr_len e r = Ret 0 /\ arr_get e r 0 = UB.
Proof.
  intros dbg. exists (at4g dbg [0x68; 0x00; 0x80; 0x01]), (V 0 2). split; [reflexivity|].
  split; [apply at4g_wf; vm_compute; reflexivity|]. destruct dbg; repeat (split; [vm_compute; reflexivity|]); vm_compute; reflexivity.
Qed.
Print Assumptions C22_refuted_out_of_bounds.

(* ---------- C23 ---------- *)

(** After [k <= len] calls of [next] the iterator has produced [get 0 .. get (k-1)], its
    [size_hint] is [len - k], and after [len] calls it is exhausted. *)
Theorem C23_iteration : forall e r v,
  wf_env e -> from_bytes e = Ret (Ok r) -> reach e r v -> value_type e v = Ret TyArray ->
  exists n it0, arr_len e v = Ret n /\ arr_iter e v = Ret it0 /\ 0 <= n /\
    (forall k, Z.of_nat k <= n -> exists xs it,
       iter_run k e it0 = Ret (xs, it) /\ length xs = k /\
       iter_size_hint it = n - Z.of_nat k /\
       (forall j, (j < k)%nat -> arr_get e v (Z.of_nat j) = Ret (nth_error xs j)) /\
       (Z.of_nat k = n -> iter_next e it = Ret (None, it))) /\
    exists xs, arr_elems e v = Ret xs /\ lenZ xs = n /\
       (forall j, Z.of_nat j < n -> arr_get e v (Z.of_nat j) = Ret (nth_error xs j)).
Proof. intros e r v Hwf Hr Hv. exact (array_iter e Hwf r v Hr Hv). Qed.
Print Assumptions C23_iteration.
Example C23_example : arr_elems (ex_env true) (V 24 8) = Ret [V 26 2; V 0 28; V 18 12].
Proof. vm_compute; reflexivity. Qed.

(* ---------- C24 ---------- *)

Theorem C24_checked_unchecked : forall e v,
  from_bytes e = Ret (Ok v) -> from_bytes_unchecked e = Ret v.
Proof. exact checked_unchecked. Qed.
Print Assumptions C24_checked_unchecked.
Example C24_example : from_bytes (ex_env true) = Ret (Ok (V 24 8)) /\ from_bytes_unchecked (ex_env true) = Ret (V 24 8).
Proof. split; vm_compute; reflexivity. Qed.

(* ---------- C25 ---------- *)

Theorem C25_bad_size : forall e,
  lenZ (e_data e) = 0 \/ lenZ (e_data e) mod 2 = 1 -> from_bytes e = Ret (Err InputIncorrectlySized).
Proof. exact root_bad_size. Qed.
Print Assumptions C25_bad_size.
Theorem C25_not_pointer : forall e pre b0 b1,
  wf_env e -> e_data e = pre ++ [b0; b1] -> lenZ pre mod 2 = 0 -> pre <> [] -> b0 < 128 ->
  from_bytes e = Ret (Err RootNotPointer).
Proof. exact root_not_pointer. Qed.
Print Assumptions C25_not_pointer.
(** Offset zero; and, without the external flag (bit 6), a target before the start. *)
Theorem C25_bad_pointer_partial : forall e pre b0 b1 er,
  wf_env e -> e_data e = pre ++ [b0; b1] -> lenZ pre mod 2 = 0 -> 128 <= b0 ->
  (((b0 mod 64) * 256 + b1) * 2 = 0 /\ er = PointerOffsetZero \/
   0 < ((b0 mod 64) * 256 + b1) * 2 /\ b0 < 192 /\ lenZ pre < ((b0 mod 64) * 256 + b1) * 2 /\
     er = PointerTargetOutOfBounds) ->
  from_bytes e = Ret (Err er).
Proof. intros e pre b0 b1 er Hwf Hd Hm Hb H. exact (root_pointer e pre b0 b1 Hwf Hd Hm er Hb H). Qed.
Print Assumptions C25_bad_pointer_partial.
Example C25_example :
  from_bytes (at4g true [1; 2; 3]) = Ret (Err InputIncorrectlySized) /\
  from_bytes (at4g true [0; 1; 0; 2]) = Ret (Err RootNotPointer) /\
  from_bytes (at4g true [0; 1; 128; 0]) = Ret (Err PointerOffsetZero) /\
  from_bytes (at4g true [0; 1; 128; 2]) = Ret (Err PointerTargetOutOfBounds) /\
  from_bytes (at4g true [0; 1; 128; 1]) = Ret (Ok (V 0 2)).
Proof. repeat split; vm_compute; reflexivity. Qed.
(** With the external flag a pointer before the start panics instead. *)
Theorem C25_refuted_external : forall dbg, from_bytes (at4g dbg [0; 1; 0xC0; 2]) = Panic.
Proof. intros []; vm_compute; reflexivity. Qed.
Print Assumptions C25_refuted_external.

(* ---------- C10 ---------- *)

(** If [get] finds a value, it is the one stored next to a key whose text is the one looked
    up.  For all keys when no shared keys are involved, and for keys of up to 15 bytes
    otherwise. *)
Theorem C10_lookup_sound_partial : forall e r v key sk x,
  wf_env e -> from_bytes e = Ret (Ok r) -> reach e r v -> value_type e v = Ret TyDict ->
  lenZ key <= 15 \/ (sk = None /\ e_sk e = None) ->
  match sk with None => dict_get e v key | Some tb => dict_get_sk e v key tb end = Ret (Some x) ->
  exists i n kv, dict_len e v = Ret n /\ 0 <= i < n /\
    arr_get e v (2 * i) = Ret (Some kv) /\ arr_get e v (2 * i + 1) = Ret (Some x) /\
    key_text e (match sk with None => e_sk e | Some tb => Some tb end) kv = Ret (Some key).
Proof. exact lookup_key_text. Qed.
Print Assumptions C10_lookup_sound_partial.
(** With shared keys a 16-byte key finds the value of its 15-byte prefix. *)
Theorem C10_refuted_long_key : forall dbg, exists e r x k,
  e_dbg e = dbg /\ wf_env e /\ from_bytes e = Ret (Ok r) /\ value_type e r = Ret TyDict /\
  dict_get e r (repeat 97 15 ++ [98]) = Ret (Some x) /\ dict_len e r = Ret 1 /\
  arr_get e r 0 = Ret (Some k) /\ key_text e (e_sk e) k = Ret (Some (repeat 97 15)).
Proof.
  intros dbg. exists (mk_env dbg 4294967296 [0x70; 0x01; 0x00; 0x00; 0x00; 0x05; 0x80; 0x03] (Some [repeat 97 15])), (V 0 6), (V 4 2), (V 2 2).
  split; [reflexivity|]. split; [apply (at4g_wf dbg [0x70; 0x01; 0x00; 0x00; 0x00; 0x05; 0x80; 0x03]); vm_compute; reflexivity|].
  destruct dbg; repeat (split; [vm_compute; reflexivity|]); vm_compute; reflexivity.
Qed.
Print Assumptions C10_refuted_long_key.

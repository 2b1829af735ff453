(** C79: every key that iterating a dict shows is found by [get]. *)
From Verif Require Import Prelude SharedKeys Decode ReadSpec ViewSpec AscendSpec Ascend Properties_Safety.
From Coq Require Import Sorted.

(** In accepted data, for every dict whose iteration shows all its entries, with non-empty texts
    in ascending order: [get] answers for every key, with the value that iteration shows for it,
    or with nothing if iteration does not show it.
    Missing: dicts in other orders and keys that are no texts, where this is false, see below. *)
Theorem C79_texts_partial : forall e r v kvs key,
  wf_env e -> from_bytes e = Ret (Ok r) -> reach e r v -> value_type e v = Ret TyDict -> e_sk e = None ->
  dict_elems e v = Ret kvs -> dict_len e v = Ret (lenZ kvs) ->
  StronglySorted bytes_lt (map fst kvs) -> ~ In [] (map fst kvs) ->
  exists o, dict_get e v key = Ret o /\ looked_up key kvs o.
Proof. exact texts_found. Qed.
Print Assumptions C79_texts_partial.
(** [{"ab": 1, "abc": true, "b": null}] *)
Definition asc_env : env :=
  at4g true [0x42;97;98;0; 0x43;97;98;99; 0x70;3; 0x80;5; 0;1; 0x80;5; 0x38;0; 0x41;98; 0x30;0; 0x80;7].
Example C79_texts_example : exists r kvs,
  wf_env asc_env /\ from_bytes asc_env = Ret (Ok r) /\ reach asc_env r r /\ value_type asc_env r = Ret TyDict /\ e_sk asc_env = None /\
  dict_elems asc_env r = Ret kvs /\ map fst kvs = [[97;98]; [97;98;99]; [98]] /\ dict_len asc_env r = Ret (lenZ kvs) /\
  StronglySorted bytes_lt (map fst kvs) /\ ~ In [] (map fst kvs) /\
  dict_get asc_env r [97;98;99] = Ret (Some (V 16 2)) /\ dict_get asc_env r [97] = Ret None.
Proof.
  exists (V 8 14), [([97;98], V 12 2); ([97;98;99], V 16 2); ([98], V 20 2)]. split; [apply at4g_wf; vm_compute; reflexivity|].
  split; [vm_compute; reflexivity|]. split; [constructor|]. do 5 (split; [vm_compute; reflexivity|]).
  split; [cbn [map fst]; repeat first [apply SSorted_nil | apply SSorted_cons | apply Forall_nil | apply Forall_cons | apply bytes_lt_cmp; reflexivity]|]. split; [cbn [map fst In]; intuition discriminate|]. split; vm_compute; reflexivity.
Qed.

(** Dicts with keys stored as numbers of a table, and the empty text as a key.  [l] are the
    entries with their keys as stored; the keys ascend, numbers before texts, and no key is
    stored as a text that has a number.  For every key of up to 15 bytes, and longer ones whose
    beginning has no number, [get] and [get_with_shared_keys] answer as iteration shows. *)
Theorem C79_table_partial : forall e r v l kvs t key,
  wf_env e -> from_bytes e = Ret (Ok r) -> reach e r v -> value_type e v = Ret TyDict -> e_sk e = Some t ->
  NoDup t -> (forall k, In k t -> lenZ k <= 15) -> lenZ key <= 15 \/ sk_encode t key = None ->
  dict_entries e v l -> StronglySorted key_lt (map fst l) -> (forall s x, In (KString s, x) l -> sk_encode t s = None) ->
  dict_elems e v = Ret kvs -> dict_len e v = Ret (lenZ kvs) ->
  exists o, dict_get e v key = Ret o /\ dict_get_sk e v key t = Ret o /\ looked_up key kvs o.
Proof. exact table_found. Qed.
Print Assumptions C79_table_partial.
(** [{"": 1, 1: true}] is in the wrong order; [{1: true, "": 1, "z": 2}] in the right one. *)
Definition asc_table_env : env :=
  mk_env true 4294967296 [0x70;3; 0;1; 0x38;0; 0x40;0; 0;1; 0x41;122; 0;2; 0x80;7] (Some [[120;120]; [121;121]]).
Example C79_table_example : exists r kvs l,
  wf_env asc_table_env /\ from_bytes asc_table_env = Ret (Ok r) /\ value_type asc_table_env r = Ret TyDict /\
  NoDup [[120;120]; [121;121]] /\ dict_entries asc_table_env r l /\ StronglySorted key_lt (map fst l) /\
  (forall s x, In (KString s, x) l -> sk_encode [[120;120]; [121;121]] s = None) /\
  dict_elems asc_table_env r = Ret kvs /\ map fst kvs = [[121;121]; []; [122]] /\ dict_len asc_table_env r = Ret (lenZ kvs) /\
  dict_get asc_table_env r [121;121] = Ret (Some (V 4 2)) /\ dict_get asc_table_env r [120;120] = Ret None.
Proof.
  exists (V 0 14), [([121;121], V 4 2); ([], V 8 2); ([122], V 12 2)], [(KShared 1, V 4 2); (KString [], V 8 2); (KString [122], V 12 2)].
  split; [split; [apply bytesb; vm_compute; reflexivity|vm_compute; split; [discriminate|reflexivity]]|].
  split; [vm_compute; reflexivity|]. split; [vm_compute; reflexivity|]. split; [repeat constructor; cbn [In]; intuition discriminate|].
  split.
  { split; [vm_compute; reflexivity|]. intros [|[|[|j]]] k x Hj; cbn [nth_error] in Hj; [injection Hj as <- <-..|destruct j; discriminate].
    - exists (V 2 2). repeat split; vm_compute; reflexivity.
    - exists (V 6 2). repeat split; vm_compute; reflexivity.
    - exists (V 10 2). repeat split; vm_compute; reflexivity. }
  split; [cbn [map fst]; repeat constructor|]. split; [intros s x [H|[H|[H|[]]]]; try discriminate H; injection H as <- <-; vm_compute; reflexivity|].
  do 4 (split; [vm_compute; reflexivity|]). vm_compute. reflexivity.
Qed.

(** Whatever the table: what a search for the key as stored gives. *)
Theorem C79_stored : forall e r v l,
  wf_env e -> from_bytes e = Ret (Ok r) -> reach e r v -> value_type e v = Ret TyDict ->
  dict_entries e v l -> StronglySorted key_lt (map fst l) ->
  forall t key, exists o, dict_get_sk e v key t = Ret o /\ looked_up (wanted t key) l o.
Proof. intros e r v l Hwf Hr Hv Hty Hl Hs t key. exact (ent_get_sk e r v Hwf Hr Hv Hty l Hl Hs t key). Qed.
Print Assumptions C79_stored.

(** [{"b": 1, "a": 2}] is accepted and iteration shows both keys; "b" is not found. *)
Theorem C79_refuted_order : forall dbg, exists e r kvs,
  e_dbg e = dbg /\ wf_env e /\ from_bytes e = Ret (Ok r) /\ e_sk e = None /\
  dict_elems e r = Ret kvs /\ map fst kvs = [[98]; [97]] /\ dict_get e r [98] = Ret None.
Proof.
  intros dbg. exists (at4g dbg [0x70;2; 0x41;98; 0;1; 0x41;97; 0;2; 0x80;5]), (V 0 10), [([98], V 4 2); ([97], V 8 2)].
  split; [reflexivity|]. split; [apply at4g_wf; vm_compute; reflexivity|]. destruct dbg; repeat (split; [vm_compute; reflexivity|]); vm_compute; reflexivity.
Qed.
Print Assumptions C79_refuted_order.
(** A number as a key: iteration shows it as the empty text, and looking that up panics. *)
Theorem C79_refuted_number : forall dbg, exists e r kvs,
  e_dbg e = dbg /\ wf_env e /\ from_bytes e = Ret (Ok r) /\ e_sk e = None /\
  dict_elems e r = Ret kvs /\ map fst kvs = [[]] /\ dict_get e r [] = Panic.
Proof.
  intros dbg. exists (at4g dbg [0x70;1; 0x30;0; 0;1; 0x80;3]), (V 0 6), [([], V 4 2)].
  split; [reflexivity|]. split; [apply at4g_wf; vm_compute; reflexivity|]. destruct dbg; repeat (split; [vm_compute; reflexivity|]); vm_compute; reflexivity.
Qed.
Print Assumptions C79_refuted_number.
(** A key stored as a text beside one stored as a number, both in the table: iteration shows
    both, the text is not found. *)
Theorem C79_refuted_both : forall dbg, exists e r kvs,
  e_dbg e = dbg /\ wf_env e /\ from_bytes e = Ret (Ok r) /\ e_sk e = Some [[97]; [98]] /\
  dict_elems e r = Ret kvs /\ map fst kvs = [[97]; [98]] /\ dict_get e r [98] = Ret None.
Proof.
  intros dbg. exists (mk_env dbg 4294967296 [0x70;2; 0;0; 0;1; 0x41;98; 0;2; 0x80;5] (Some [[97];[98]])), (V 0 10), [([97], V 4 2); ([98], V 8 2)].
  split; [reflexivity|]. split; [apply (at4g_wf dbg [0x70;2; 0;0; 0;1; 0x41;98; 0;2; 0x80;5]); vm_compute; reflexivity|]. destruct dbg; repeat (split; [vm_compute; reflexivity|]); vm_compute; reflexivity.
Qed.
Print Assumptions C79_refuted_both.

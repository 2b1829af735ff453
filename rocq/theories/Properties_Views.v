(** C57: the views of a dict - [len], [first], the iterator and its [size_hint] - agree. *)
From Verif Require Import Prelude Lib SharedKeys Decode ReadSpec ViewSpec Views Properties_Safety.

(** In accepted data every dict has a list of entries, [len] of them, read from alternate slots.
    Iteration gives them in this order, up to the first key that has no text; after [k] calls of
    [next] the [size_hint] is [len - k]; after [len] calls the iterator is exhausted and stays
    so.  [first] is the first key and value. *)
Theorem C57_dict_views : forall e r v,
  wf_env e -> from_bytes e = Ret (Ok r) -> reach e r v -> value_type e v = Ret TyDict ->
  exists es it0, entries e v es /\ arr_iter e v = Ret it0 /\
    dict_elems e v = Ret (known es) /\
    dict_first e v = match es with [] => Ret None | (_, x) :: _ => kv <- arr_get_unchecked e v 0 ;; Ret (Some (kv, x)) end /\
    (forall k, (k <= length (known es))%nat -> exists it,
       dict_run k e it0 = Ret (firstn k (known es), it) /\ dict_iter_size_hint it = lenZ es - Z.of_nat k /\
       (k = length es -> dict_iter_next e it = Ret (None, it))).
Proof. intros e r v Hwf. exact (dict_views e Hwf r v). Qed.
Print Assumptions C57_dict_views.

(** [{1: "ab" (by pointer), "c": 1}] read with the table that gives key 1 its text. *)
Definition view_env : env :=
  mk_env true 4294967296 [0x42;97;98;0; 0x70;2; 0;1; 0x80;4; 0x41;99; 0;1; 0x80;5] (Some [[120;120];[121;121]]).
Example C57_example : exists r,
  wf_env view_env /\ from_bytes view_env = Ret (Ok r) /\ reach view_env r r /\ value_type view_env r = Ret TyDict /\
  dict_len view_env r = Ret 2 /\ dict_elems view_env r = Ret [([121;121], V 0 8); ([99], V 12 2)].
Proof.
  exists (V 4 10). split; [split; [apply bytesb; vm_compute; reflexivity|vm_compute; split; [discriminate|reflexivity]]|].
  split; [vm_compute; reflexivity|]. split; [constructor|]. repeat (split; [vm_compute; reflexivity|]). vm_compute; reflexivity.
Qed.

(** With a key that has no text (here: a small integer and no table) the iterator announces
    entries and yields none ... *)
Theorem C57_refuted_hint : forall dbg, exists e r it0 it1,
  e_dbg e = dbg /\ wf_env e /\ from_bytes e = Ret (Ok r) /\ dict_len e r = Ret 2 /\
  arr_iter e r = Ret it0 /\ dict_iter_size_hint it0 = 2 /\ dict_iter_next e it0 = Ret (None, it1).
Proof.
  intros dbg. exists (at4g dbg [0x70;2; 0;5; 0x41;97; 0;6; 0;7; 0x80;5]). eexists _, _, _. split; [reflexivity|].
  split; [apply at4g_wf; vm_compute; reflexivity|]. destruct dbg; repeat (split; [vm_compute; reflexivity|]); vm_compute; reflexivity.
Qed.
Print Assumptions C57_refuted_hint.
(** ... and, asked again after this [None], it takes a value for a key. *)
Theorem C57_refuted_after_none : forall dbg, exists e r it0 it1 it2 x k kv,
  e_dbg e = dbg /\ wf_env e /\ from_bytes e = Ret (Ok r) /\
  arr_iter e r = Ret it0 /\ dict_iter_next e it0 = Ret (None, it1) /\ dict_iter_next e it1 = Ret (Some (k, x), it2) /\
  arr_get e r 1 = Ret (Some kv) /\ to_str e kv = Ret k.
Proof.
  intros dbg. exists (at4g dbg [0x70;2; 0;5; 0x41;97; 0;6; 0;7; 0x80;5]). eexists _, _, _, _, _, _, _. split; [reflexivity|].
  split; [apply at4g_wf; vm_compute; reflexivity|]. destruct dbg; repeat (split; [vm_compute; reflexivity|]); vm_compute; reflexivity.
Qed.
Print Assumptions C57_refuted_after_none.

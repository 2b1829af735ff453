(** C53: owned copies of a document (src/alloced.rs, [clone_from_bytes] in src/value). *)
From Verif Require Import Prelude Lib SharedKeys Decode Read ReadSpec Safety Alloced Place Properties_Safety.

(** Every call that reads a value gives the same answer on both buffers. *)
Definition same_answers (e1 e2 : env) : Prop :=
  forall v,
    value_type e1 v = value_type e2 v /\ to_bool e1 v = to_bool e2 v /\
    to_short e1 v = to_short e2 v /\ to_unsigned_short e1 v = to_unsigned_short e2 v /\
    to_int e1 v = to_int e2 v /\ to_unsigned_int e1 v = to_unsigned_int e2 v /\
    to_float e1 v = to_float e2 v /\ to_double e1 v = to_double e2 v /\
    to_str e1 v = to_str e2 v /\ to_data e1 v = to_data e2 v /\
    as_array e1 v = as_array e2 v /\ as_dict e1 v = as_dict e2 v /\
    arr_len e1 v = arr_len e2 v /\ (forall i, arr_get e1 v i = arr_get e2 v i) /\
    arr_elems e1 v = arr_elems e2 v /\
    dict_len e1 v = dict_len e2 v /\ (forall k, dict_get e1 v k = dict_get e2 v k) /\
    (forall k sk, dict_get_sk e1 v k sk = dict_get_sk e2 v k sk) /\
    dict_first e1 v = dict_first e2 v /\ dict_elems e1 v = dict_elems e2 v /\
    read_doc e1 v = read_doc e2 v.

Lemma moved_same e b : wf_env e -> wf_env (moved e b) -> same_answers (moved e b) e.
Proof.
  intros H1 H2 v. do 13 (split; [reflexivity|]). split; [intros; apply arr_get_moved; assumption|].
  split; [apply arr_elems_moved; assumption|]. split; [reflexivity|]. split; [intros; apply dict_get_moved; assumption|].
  split; [intros; apply dict_get_sk_moved; assumption|]. split; [apply dict_first_moved; assumption|].
  split; [apply dict_elems_moved; assumption|]. apply read_tree_moved; assumption.
Qed.

(** The same bytes at two addresses (and found with the same shared keys): all calls on all
    values, accepted or not, answer alike. *)
Theorem C53_reads_alike : forall dbg data sk base base',
  wf_env (mk_env dbg base data sk) -> wf_env (mk_env dbg base' data sk) ->
  same_answers (mk_env dbg base' data sk) (mk_env dbg base data sk).
Proof. intros dbg data sk base base' H1 H2. exact (moved_same _ base' H1 H2). Qed.
Print Assumptions C53_reads_alike.

(** What [from_bytes] accepts, [clone_from_bytes] accepts wherever the copy lands, with the same
    root. *)
Theorem C53_copy_accepted : forall dbg data sk base base' r,
  wf_env (mk_env dbg base data sk) -> wf_env (mk_env dbg base' data sk) ->
  from_bytes (mk_env dbg base data sk) = Ret (Ok r) ->
  clone_from_bytes dbg base' sk data = Ret (Ok (mk_alloced (mk_env dbg base' data sk) r)).
Proof.
  intros dbg data sk base base' r H1 H2 H. unfold clone_from_bytes.
  pose proof (from_bytes_accepts _ base' H1 H2 r H) as H3. unfold moved in H3; cbn [e_dbg e_data e_sk] in H3.
  cbv zeta. rewrite H3. reflexivity.
Qed.
Print Assumptions C53_copy_accepted.

(** And on input without huge length prefixes (see C17) it rejects, or panics, exactly when
    [from_bytes] does. *)
Theorem C53_same_verdict_partial : forall dbg data sk base base',
  wf_env (mk_env dbg base data sk) -> wf_env (mk_env dbg base' data sk) -> modest (mk_env dbg base data sk) ->
  clone_from_bytes dbg base' sk data =
  (r <-? from_bytes (mk_env dbg base data sk) ;; Ret (Ok (mk_alloced (mk_env dbg base' data sk) r))).
Proof.
  intros dbg data sk base base' H1 H2 H. unfold clone_from_bytes.
  pose proof (from_bytes_moved _ base' H1 H2 H) as H3. unfold moved in H3; cbn [e_dbg e_data e_sk] in H3.
  cbv zeta. rewrite H3. reflexivity.
Qed.
Print Assumptions C53_same_verdict_partial.

(** The conversions of an owned value keep it, and say what it is. *)
Theorem C53_conversions : forall a,
  (forall x, alloced_to_array a = Ret (Some x) <-> value_type (al_env a) (al_val a) = Ret TyArray /\ x = a) /\
  (forall x, alloced_to_dict a = Ret (Some x) <-> value_type (al_env a) (al_val a) = Ret TyDict /\ x = a).
Proof.
  intros a. unfold alloced_to_array, alloced_to_dict. destruct (value_type (al_env a) (al_val a)) as [t| | |]; cbn [bind];
    (split; intros x; (split; [|intros [H ->]]); try discriminate).
  - destruct t; cbn [vtype_eqb]; try discriminate. intros H. injection H as <-. split; reflexivity.
  - injection H as ->. reflexivity.
  - destruct t; cbn [vtype_eqb]; try discriminate. intros H. injection H as <-. split; reflexivity.
  - injection H as ->. reflexivity.
Qed.
Print Assumptions C53_conversions.

Example C53_example :
  wf_env (mk_env true 4294967296 ex_bytes None) /\ wf_env (mk_env true 140737488355328 ex_bytes None) /\
  modest (mk_env true 4294967296 ex_bytes None) /\
  clone_from_bytes true 140737488355328 None ex_bytes =
    Ret (Ok (mk_alloced (mk_env true 140737488355328 ex_bytes None) (V 24 8))) /\
  (exists a, clone_from_bytes true 140737488355328 None ex_bytes = Ret (Ok a) /\
     alloced_to_array a = Ret (Some a) /\ alloced_to_dict a = Ret None /\
     dict_get (al_env a) (V 18 12) [97;98] = Ret (Some (V 8 14))).
Proof.
  split; [apply ex_env_wf|]. split.
  { split; [apply bytesb; vm_compute; reflexivity|]. vm_compute. split; congruence. }
  split; [apply modestb_ok; vm_compute; reflexivity|]. split; [vm_compute; reflexivity|].
  eexists. split; [vm_compute; reflexivity|]. split; [vm_compute; reflexivity|]. split; vm_compute; reflexivity.
Qed.

(** With a huge length prefix the address decides: an array that claims 2^62 - 2^38 elements is
    rejected at one address, and at another the bounds check overflows: a panic in debug builds,
    and in release builds a read outside the data. *)
Definition huge_count : list Z :=
  [111; 255; 128; 128; 128; 128; 128; 248; 255; 255; 63; 0; 0; 0; 128; 7].
Theorem C53_refuted_address :
  wf_env (mk_env true 4294967296 huge_count None) /\ wf_env (mk_env true 2199023255552 huge_count None) /\
  (forall dbg, from_bytes (mk_env dbg 4294967296 huge_count None) = Ret (Err ArrayOutOfBounds)) /\
  clone_from_bytes true 2199023255552 None huge_count = Panic /\
  clone_from_bytes false 2199023255552 None huge_count = UB.
Proof.
  split; [split; [apply bytesb; vm_compute; reflexivity|vm_compute; split; congruence]|].
  split; [split; [apply bytesb; vm_compute; reflexivity|vm_compute; split; congruence]|].
  split; [intros []; vm_compute; reflexivity|]. split; vm_compute; reflexivity.
Qed.
Print Assumptions C53_refuted_address.

(** The copy is not inside the scope the original was in, so a dict with shared keys loses its
    keys: the entry that is found in the original is not found in the copy. *)
Definition shared_doc : list Z := [112; 1; 0; 0; 0; 7; 128; 3].
Theorem C53_refuted_shared_keys :
  let orig := mk_env true 4294967296 shared_doc (Some [[97;98;99]]) in
  from_bytes orig = Ret (Ok (V 0 6)) /\ dict_get orig (V 0 6) [97;98;99] = Ret (Some (V 4 2)) /\
  exists a, clone_from_bytes true 8589934592 None shared_doc = Ret (Ok a) /\ al_val a = V 0 6 /\
    dict_get (al_env a) (al_val a) [97;98;99] = Ret None /\
    dict_elems (al_env a) (al_val a) = Ret [].
Proof.
  split; [vm_compute; reflexivity|]. split; [vm_compute; reflexivity|].
  eexists. split; [vm_compute; reflexivity|]. split; [reflexivity|]. split; vm_compute; reflexivity.
Qed.
Print Assumptions C53_refuted_shared_keys.

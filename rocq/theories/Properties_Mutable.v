(** Mutable arrays and dicts (C35-C39, C51). *)
From Verif Require Import Prelude Lib Varint Utf8 Float SharedKeys Decode Read Encodable Encoder BuilderSpec
  Isort PathSpec ValueSpec CopySpec Flat Values Copy Mutable MutableSpec MutableSlot MutableProofs MutableValue.
From Coq Require Import Permutation Sorted.

(* ---------- C35 ---------- *)

(** Any program of API calls on a new [MutableArray] and the collections put into it does what
    the same operations do on a list: if they would set beyond the end of a list it panics, and
    otherwise everything the API shows at every path, at the end, is that of the list.
    [means_all] gives each call its operation; the values are those of C37 and C38, and the keys
    are not cut short by the shared keys [T] (C36).  Holds in debug and release. *)
Theorem C35_programs : forall T dbg ops ops', means_all T ops ops' ->
  match srun (TArr []) ops' with
  | Ret t => exists s, mrun dbg (SArr []) ops = Ret s /\ agrees T s t
  | Panic => mrun dbg (SArr []) ops = Panic
  | _ => False
  end.
Proof. exact array_programs. Qed.
Print Assumptions C35_programs.

(** The parts of the claim about single calls. *)
Theorem C35_set : forall l i s l', ma_replace l i s = Ret l' ->
  ma_len l' = ma_len l /\ ma_slot l' i = Some s /\ forall j, j <> i -> ma_slot l' j = ma_slot l j.
Proof. exact set_others. Qed.
Print Assumptions C35_set.
Theorem C35_set_beyond : forall l i s, ma_len l <= i -> ma_replace l i s = Panic.
Proof. exact set_out. Qed.
Print Assumptions C35_set_beyond.
Theorem C35_remove : forall l i, 0 <= i < ma_len l ->
  ma_len (ma_remove l i) = ma_len l - 1 /\ forall j, ma_slot (ma_remove l i) j = ma_slot l (if j <? i then j else j + 1).
Proof. exact remove_others. Qed.
Print Assumptions C35_remove.
Theorem C35_remove_beyond : forall l i, ma_len l <= i -> ma_remove l i = l.
Proof. exact remove_out. Qed.
Print Assumptions C35_remove_beyond.
Theorem C35_push : forall dbg l v l', ma_push dbg l v = Ret l' ->
  ma_len l' = ma_len l + 1 /\ (exists s, slot_new dbg v = Ret s /\ ma_slot l' (ma_len l) = Some s) /\
  forall j, j < ma_len l -> ma_slot l' j = ma_slot l j.
Proof. exact push_others. Qed.
Print Assumptions C35_push.
Theorem C35_iteration : forall l, ma_elems l = l.
Proof. exact ma_elems_id. Qed.
Print Assumptions C35_iteration.

(** The hypotheses are met by a program that nests collections, sets, removes, and ends with
    [[true, [7]], {"ab": null}, 70000]. *)
Definition ex_calls : list (list mstep * mop) :=
  [([], MPush (EStr [120;121;122])); ([], MPush (EInt U64 3)); ([], MPush (EInt U32 70000));
   ([], MSetArr 0 []); ([MIdx 0], MPush (EBool true)); ([MIdx 0], MPush ENull); ([MIdx 0], MSetArr 1 []);
   ([MIdx 0; MIdx 1], MPush (EInt U8 7)); ([], MRemoveAt 5);
   ([], MSetDict 1 [] None); ([MIdx 1], MInsert [97;98] (EBool false)); ([MIdx 1], MInsert [99;100] ENull);
   ([MIdx 1], MInsert [97;98] ENull); ([MIdx 1], MRemoveKey [99;100]); ([], MPush (EF64 0)); ([], MRemoveAt 3)].
Definition ex_meaning : list (list mstep * sop) :=
  [([], SPush (TStr [120;121;122])); ([], SPush (TInt 3)); ([], SPush (TInt 70000));
   ([], SSet 0 (TArr [])); ([MIdx 0], SPush (TBool true)); ([MIdx 0], SPush TNull); ([MIdx 0], SSet 1 (TArr []));
   ([MIdx 0; MIdx 1], SPush (TInt 7)); ([], SDel 5);
   ([], SSet 1 (TDict [])); ([MIdx 1], SPut [97;98] (TBool false)); ([MIdx 1], SPut [99;100] TNull);
   ([MIdx 1], SPut [97;98] TNull); ([MIdx 1], SDrop [99;100]); ([], SPush (TF64 0)); ([], SDel 3)].
Example C35_example : means_all [] ex_calls ex_meaning /\
  srun (TArr []) ex_meaning = Ret (TArr [TArr [TBool true; TArr [TInt 7]]; TDict [([97;98], TNull)]; TInt 70000]) /\
  srun (TArr []) (firstn 3 ex_meaning ++ [([], SSet 3 TNull)]) = Panic.
Proof.
  split; [|split; vm_compute; reflexivity].
  assert (shows [] (SArr []) (TArr [])) as Ha by (constructor; constructor).
  assert (shows [] (SDict [] None) (TDict [])) as Hd by (apply empty_dict; exact I).
  unfold means_all, ex_calls, ex_meaning.
  repeat (first [apply Forall2_cons|apply Forall2_nil]).
  all: split; [reflexivity|]; split; [repeat constructor|]; cbn [snd].
  all: constructor; first [exact Ha|exact Hd|apply wf_encb_ok; reflexivity|reflexivity|(left; vm_compute; discriminate)|lia].
Qed.

(* ---------- C36 ---------- *)

(** The same for a new [MutableDict], with or without shared keys, and ordinary maps: proved for
    keys which the tables [T] of the dicts do not confuse with one of their own, [own]: those of
    up to 15 bytes, and longer ones whose first 15 bytes are not a key in one of the tables. *)
Theorem C36_programs_partial : forall T sk dbg ops ops', sk_in T sk -> means_all T ops ops' ->
  match srun (TDict []) ops' with
  | Ret t => exists s, mrun dbg (SDict [] sk) ops = Ret s /\ agrees T s t
  | Panic => mrun dbg (SDict [] sk) ops = Panic
  | _ => False
  end.
Proof. exact dict_programs. Qed.
Print Assumptions C36_programs_partial.
(** Without shared keys in any dict this is the full property. *)
Theorem C36_programs_plain : forall dbg ops ops', means_all [] ops ops' ->
  match srun (TDict []) ops' with
  | Ret t => exists s, mrun dbg (SDict [] None) ops = Ret s /\ agrees [] s t
  | Panic => mrun dbg (SDict [] None) ops = Panic
  | _ => False
  end.
Proof. exact (fun dbg ops ops' => dict_programs [] None dbg ops ops' I). Qed.
Print Assumptions C36_programs_plain.
Theorem C36_any_key_plain : forall k, own [] k.
Proof. exact own_plain. Qed.
Print Assumptions C36_any_key_plain.

(** One call leaves all other keys alone. *)
Theorem C36_insert_partial : forall T m sk t k s, shows T (SDict m sk) t -> own T k ->
  md_slot (md_insert_slot m sk k s) sk k = Some s /\
  forall k', own T k' -> k' <> k -> md_slot (md_insert_slot m sk k s) sk k' = md_slot m sk k'.
Proof. exact insert_others. Qed.
Print Assumptions C36_insert_partial.
Theorem C36_remove_partial : forall T m sk t k, shows T (SDict m sk) t -> own T k ->
  md_slot (md_remove m sk k) sk k = None /\
  forall k', own T k' -> k' <> k -> md_slot (md_remove m sk k) sk k' = md_slot m sk k'.
Proof. exact drop_others. Qed.
Print Assumptions C36_remove_partial.

Definition ex_table : shared_keys := [[97;98]; [99;100]; repeat 101 15].
Definition ex_dict_calls : list (list mstep * mop) :=
  [([], MInsert [99;100] (EInt U16 9000)); ([], MInsert (repeat 101 15) ENull); ([], MInsert (repeat 102 20) (EStr [65]));
   ([], MInsertDict [97;98] [] (Some ex_table)); ([MKey [97;98]], MInsert [99;100] (EBool true)); ([], MRemoveKey [120])].
Example C36_example : sk_in [ex_table] (Some ex_table) /\ exists ops', means_all [ex_table] ex_dict_calls ops' /\
  srun (TDict []) ops' = Ret (TDict [([99;100], TInt 9000); (repeat 101 15, TNull); (repeat 102 20, TStr [65]);
    ([97;98], TDict [([99;100], TBool true)])]) /\
  mrun true (SDict [] (Some ex_table)) ex_dict_calls <> Panic.
Proof.
  split; [left; reflexivity|].
  exists [([], SPut [99;100] (TInt 9000)); ([], SPut (repeat 101 15) TNull); ([], SPut (repeat 102 20) (TStr [65]));
   ([], SPut [97;98] (TDict [])); ([MKey [97;98]], SPut [99;100] (TBool true)); ([], SDrop [120])].
  split; [|split; [vm_compute; reflexivity|vm_compute; discriminate]].
  assert (shows [ex_table] (SDict [] (Some ex_table)) (TDict [])) as Hd by (apply empty_dict; left; reflexivity).
  assert (Hlong : own [ex_table] (repeat 102 20)).
  { right. intros t [<-|[]] Hi. cbn in Hi. repeat destruct Hi as [Hi|Hi]; try discriminate Hi; destruct Hi. }
  unfold means_all, ex_dict_calls.
  repeat (first [apply Forall2_cons|apply Forall2_nil]).
  all: split; [reflexivity|]; split; [first [constructor; fail|repeat (constructor; try (left; vm_compute; discriminate))]|]; cbn [snd].
  all: constructor; first [exact Hd|exact Hlong|apply wf_encb_ok; reflexivity|reflexivity|(left; vm_compute; discriminate)|lia].
Qed.

(** With shared keys, two different keys are one: a key of 16 bytes is taken for the table's key
    of 15 bytes it begins with. *)
Theorem C36_refuted : exists t k1 k2, k1 <> k2 /\ utf8_valid k1 = true /\ utf8_valid k2 = true /\
  exists m1 m2 bs, md_insert true [] (Some t) k1 (EStr [65;66]) = Ret m1 /\ md_insert true m1 (Some t) k2 (EBool true) = Ret m2 /\
    md_contains m1 (Some t) k2 = true /\ md_len m2 = 1 /\
    md_get m2 (Some t) k1 = Some bs /\ md_get m2 (Some t) k2 = Some bs /\ reads_as bs (TBool true) /\
    md_remove m2 (Some t) k2 = [].
Proof.
  exists [repeat 97 15], (repeat 97 15), (repeat 97 16). split; [discriminate|]. split; [reflexivity|]. split; [reflexivity|].
  eexists _, _, _. split; [vm_compute; reflexivity|]. split; [vm_compute; reflexivity|]. split; [vm_compute; reflexivity|].
  split; [vm_compute; reflexivity|]. split; [vm_compute; reflexivity|]. split; [vm_compute; reflexivity|].
  split; [|vm_compute; reflexivity]. intros dbg base. vm_compute. reflexivity.
Qed.
Print Assumptions C36_refuted.

(* ---------- C37 ---------- *)

(** Every value that [keeps]: of any type but the integers, all [u8], [u16], [u32], the other
    integers within limits. *)
Theorem C37_partial : forall v, wf_enc v -> keeps v -> forall dbg, exists s bs,
  slot_new dbg v = Ret s /\ slot_value s = Some bs /\ slot_reads_back v bs.
Proof. exact slot_keeps. Qed.
Print Assumptions C37_partial.
(** No other value reads back: nothing is returned, or something else is read. *)
Theorem C37_refuted_exactly : forall v, wf_enc v -> ~ keeps v -> forall dbg,
  match slot_new dbg v with
  | Ret s => exists bs, slot_value s = Some bs /\ ~ slot_reads_back v bs
  | _ => True
  end.
Proof. exact slot_loses. Qed.
Print Assumptions C37_refuted_exactly.
Example C37_example : wf_enc (ESome (EInt U64 (2 ^ 40 + 1))) /\ keeps (ESome (EInt U64 (2 ^ 40 + 1))) /\
  wf_enc (EStr (repeat 97 100)) /\ keeps (EStr (repeat 97 100)) /\
  wf_enc (EInt I64 65536) /\ ~ keeps (EInt I64 65536).
Proof.
  split; [apply wf_encb_ok; reflexivity|]. split; [right; vm_compute; reflexivity|]. split; [apply wf_encb_ok; reflexivity|].
  split; [exact I|]. split; [apply wf_encb_ok; reflexivity|]. cbn. intros [_ H]. apply H. reflexivity.
Qed.
(** 65536 as an [i64] reads back as 0; 70000 as an [i32] never returns; 2^40 as a [u64] reads
    back as 0; 2^57 panics in debug. *)
Theorem C37_refuted : (exists s bs, slot_new true (EInt I64 65536) = Ret s /\ slot_value s = Some bs /\ reads_as bs (TInt 0)) /\
  slot_new true (EInt I32 70000) = Diverge /\
  (exists s bs, slot_new true (EInt U64 (2 ^ 40)) = Ret s /\ slot_value s = Some bs /\ reads_as bs (TInt 0)) /\
  slot_new true (EInt U64 (2 ^ 57)) = Panic.
Proof.
  split; [|split; [vm_compute; reflexivity|split; [|vm_compute; reflexivity]]].
  - eexists _, _. split; [vm_compute; reflexivity|]. split; [reflexivity|]. intros dbg base. vm_compute. reflexivity.
  - eexists _, _. split; [vm_compute; reflexivity|]. split; [reflexivity|]. intros dbg base. vm_compute. reflexivity.
Qed.
Print Assumptions C37_refuted.

(* ---------- C38 ---------- *)

(** Copying Fleece data: what is copied shows the tree that is read from it.  Proved when its
    scalars are kept (see C37), its dicts have no key twice, and its keys are [own]. *)
Theorem C38_partial : forall T dbg src v t, holdable T src v t ->
  exists s, slot_from_fleece (fuel_of src) dbg src v false = Ret s /\ agrees T s t.
Proof. exact copy_agrees. Qed.
Print Assumptions C38_partial.
Definition mut_bytes : list Z := [66;97;98;0; 67;120;121;122; 112;1;128;5;128;4; 96;3;0;5;128;5;8;17; 128;4].
Definition mut_env : env := mk_env true 2147483648 mut_bytes (Some [[97;98]]).
Example C38_example : exists v t, from_bytes mut_env = Ret (Ok v) /\ holdable [[[97;98]]] mut_env v t /\
  t = TArr [TInt 5; TDict [([97;98], TStr [120;121;122])]; TInt (-2031)].
Proof.
  eexists _, _. split; [vm_compute; reflexivity|]. split; [|reflexivity].
  split; [split; [apply all_bytesb; reflexivity|split; [reflexivity|]]|].
  - constructor; [apply wf_encb_ok; reflexivity|constructor].
  - split; [left; reflexivity|]. split; [vm_compute; reflexivity|].
    split; [repeat (constructor; cbn [map fst snd]); intros []|].
    split; [repeat (constructor; cbn [map fst snd]); vm_compute; discriminate|].
    eexists. split; [vm_compute; reflexivity|]. repeat constructor.
Qed.
(** An integer stored in three bytes: 70000 never returns, 65536 becomes 0. *)
Theorem C38_refuted_hangs : exists src v, from_bytes src = Ret (Ok v) /\ read_doc src v = Ret (TArr [TInt 70000]) /\
  slot_from_fleece (fuel_of src) true src v false = Diverge.
Proof.
  exists (mk_env true 2147483648 [18;112;17;1; 96;1;128;3; 128;2] None). eexists.
  split; [vm_compute; reflexivity|]. split; vm_compute; reflexivity.
Qed.
Print Assumptions C38_refuted_hangs.
Theorem C38_refuted_lost : exists src v l bs, from_bytes src = Ret (Ok v) /\ read_doc src v = Ret (TArr [TInt 65536]) /\
  slot_from_fleece (fuel_of src) true src v false = Ret (SArr l) /\ ma_get l 0 = Some bs /\ reads_as bs (TInt 0).
Proof.
  exists (mk_env true 2147483648 [18;0;0;1; 96;1;128;3; 128;2] None). eexists _, _, _.
  split; [vm_compute; reflexivity|]. split; [vm_compute; reflexivity|]. split; [vm_compute; reflexivity|].
  split; [vm_compute; reflexivity|]. intros dbg base. vm_compute. reflexivity.
Qed.
Print Assumptions C38_refuted_lost.

(* ---------- C39 ---------- *)

(** A dict's iterator, after any number of calls of [next]. *)
Theorem C39_dict : forall T m sk t n, shows T (SDict m sk) t ->
  let it := md_after n (md_iter_new m sk) in
  md_size_hint it = (lenZ (md_left it), Some (lenZ (md_left it))).
Proof. exact dict_hint. Qed.
Print Assumptions C39_dict.
Example C39_dict_example : exists m, mrun true (SDict [] (Some ex_table)) ex_dict_calls = Ret (SDict m (Some ex_table)) /\
  (exists t, shows [ex_table] (SDict m (Some ex_table)) t) /\
  md_size_hint (md_after 1 (md_iter_new m (Some ex_table))) = (3, Some 3).
Proof.
  destruct C36_example as (Hs & ops' & Hm & Hr & _).
  pose proof (run_sim [ex_table] true _ _ Hm (SDict [] (Some ex_table)) (TDict []) (empty_dict _ _ Hs)) as H.
  rewrite Hr in H. destruct H as (s & H1 & H2). remember ex_dict_calls as c eqn:Ec in H1 at 1. subst c.
  vm_compute in H1. injection H1 as <-. eexists. split; [vm_compute; reflexivity|]. split; [eexists; exact H2|]. vm_compute. reflexivity.
Qed.

(** An array's iterator: right when new, and then never again. *)
Theorem C39_array : forall l n, let it := ma_after n (ma_iter_new l) in
  ma_size_hint it = (lenZ l, Some (lenZ l)) /\ lenZ (ma_left it) = Z.max 0 (lenZ l - Z.of_nat n).
Proof. exact arr_hint. Qed.
Print Assumptions C39_array.
Theorem C39_refuted : exists l, let it := ma_after 1 (ma_iter_new l) in
  ma_size_hint it = (2, Some 2) /\ lenZ (ma_left it) = 1.
Proof. exists [SArr []; SArr []]. vm_compute. auto. Qed.
Print Assumptions C39_refuted.

(* ---------- C51 ---------- *)

(** A clone of a collection built by any program shows the same content as the original. *)
Theorem C51_clone : forall T dbg ops ops' s0 t0 s, means_all T ops ops' -> shows T s0 t0 ->
  mrun dbg s0 ops = Ret s -> slot_clone s = s.
Proof. exact clone_same. Qed.
Print Assumptions C51_clone.
(** Changes made to the clone leave the original alone: collections are values, they share
    nothing, so the same program does to a clone what it does to the original. *)
Theorem C51_clone_programs : forall T dbg ops s t, shows T s t ->
  mrun dbg (slot_clone s) ops = mrun dbg s ops.
Proof. exact clone_programs. Qed.
Print Assumptions C51_clone_programs.
Example C51_example : exists s t, shows [] s t /\ mrun true (SArr []) ex_calls = Ret s /\ slot_clone s = s.
Proof.
  destruct C35_example as (Hm & Hr & _).
  pose proof (run_sim [] true _ _ Hm (SArr []) (TArr []) ltac:(constructor; constructor)) as H.
  rewrite Hr in H. destruct H as (s & H1 & H2). exists s. eexists. split; [exact H2|]. split; [exact H1|]. eapply shows_clone. exact H2.
Qed.

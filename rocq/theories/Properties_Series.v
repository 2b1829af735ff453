(** C90: documents written one after the other with one key table, which is saved and restored. *)
From Verif Require Import Prelude Lib Utf8 Float SharedKeys Decode Read Encodable Encoder BuilderSpec LayoutSpec PathSpec
  SharedKeysState SharedKeysSpec Isort Properties_Encoder Properties_SharedKeys SeriesSpec SeriesProofs.
From Coq Require Import Permutation.

(** The table left by a series of documents, however many, is saved and restored, and with the
    restored table every document of the series is read as it was written: by path queries
    through a scope that has the table ([go]) or with the table passed along ([go_sk]), and by
    iterating.  Conditions beyond those of C34 on each document ([fit]): the table is not full
    at the end, its saved state has none of the two sizes of [C33_refuted_size], and no key
    longer than 16 bytes begins with a key of the table ([clear_of]). *)
Theorem C90_partial : forall c ds tn, sort_ok (c_sort c) -> series c [] ds tn -> lenZ tn < MAX_KEYS ->
  (forall d k, In d ds -> In (OpKey k) (sd_ops d) -> clear_of tn k) ->
  table_bytes tn <> 16380 -> table_bytes tn <> 16382 ->
  exists saved, get_state_bytes c tn = Ret saved /\ forall dbg base, addressable base saved ->
    exists table, from_state_bytes (c_ua c) (mk_env dbg base saved None) = Ret (Some table) /\
    forall d, In d ds -> forall dbg' base', addressable base' (sd_bytes d) ->
      let m := mk_env dbg' base' (sd_bytes d) (Some table) in
      let m0 := mk_env dbg' base' (sd_bytes d) None in
      exists root, from_bytes m = Ret (Ok root) /\ from_bytes m0 = Ret (Ok root) /\
        (forall p, (forall k, In (PKey k) p -> clear_of table k) ->
           answers m (go m root) (sd_tree d) p /\ answers m (go_sk table m0 root) (sd_tree d) p) /\
        (forall p l, (forall k, In (PKey k) p -> clear_of table k) -> (forall k, In k (map fst l) -> clear_of table k) ->
           tree_at (sd_tree d) p = Some (TDict l) ->
           exists x, go m root p = Ret (Some x) /\ iterates m (Some table) x l).
Proof. exact series_survives. Qed.
Print Assumptions C90_partial.

(** Going on with the restored table is going on with the series: the theorem above applies again
    to the documents from before and after the restart together. *)
Theorem C90_goes_on : forall c ds1 t1 saved dbg base table ds2 t2,
  sort_ok (c_sort c) -> series c [] ds1 t1 -> lenZ t1 < MAX_KEYS ->
  table_bytes t1 <> 16380 -> table_bytes t1 <> 16382 ->
  get_state_bytes c t1 = Ret saved -> addressable base saved ->
  from_state_bytes (c_ua c) (mk_env dbg base saved None) = Ret (Some table) ->
  series c table ds2 t2 -> series c [] (ds1 ++ ds2) t2.
Proof. exact series_goes_on. Qed.
Print Assumptions C90_goes_on.

(** [{"bb": 1, "aaaaaaaaaaaaaaaaa": 2}] and then [{"aaaaaaaaaaaaaaa": 3}]. *)
Definition s_doc1 (bs : list Z) : sdoc :=
  mk_sdoc [OpBeginDict; OpKey [98;98]; OpValue (EInt U8 1); OpKey (repeat 97 17); OpValue (EInt U8 2); OpEndDict]
    (TDict [([98;98], TInt 1); (repeat 97 17, TInt 2)]) bs.
Definition s_doc2 (bs : list Z) : sdoc :=
  mk_sdoc [OpBeginDict; OpKey (repeat 97 15); OpValue (EInt U8 3); OpEndDict] (TDict [(repeat 97 15, TInt 3)]) bs.
Definition s_doc3 (bs : list Z) : sdoc :=
  mk_sdoc [OpBeginDict; OpKey [99;99]; OpValue (EInt U8 3); OpKey [98;98]; OpValue ENull; OpEndDict]
    (TDict [([99;99], TInt 3); ([98;98], TNull)]) bs.
Definition s_bytes (t0 : shared_keys) (ops : list op) : list Z :=
  match run_doc (ex_cfg true) [] (OpSetSharedKeys t0 :: ops) with Ret (_, bs, _) => bs | _ => [] end.
Definition s_bs1 : list Z := s_bytes [] (sd_ops (s_doc1 [])).
Definition s_bs2 : list Z := s_bytes [[98;98]] (sd_ops (s_doc2 [])).
Definition s_bs3 : list Z := s_bytes [[98;98]] (sd_ops (s_doc3 [])).

Lemma s_wrote t0 ops tr bs n t1 : run_doc (ex_cfg true) [] (OpSetSharedKeys t0 :: ops) = Ret (repeat (Ok tt) n, bs, Some t1) ->
  forallb (fun o => match o with OpSetSharedKeys _ => false | _ => true end) ops = true ->
  b_finish (fst (b_run b_init ops)) = Some tr -> wrote (ex_cfg true) t0 (mk_sdoc ops tr bs) t1.
Proof.
  intros H Ho Ht. unfold run_doc in H. change (enc_new_to_vec []) with enc_new in H.
  destruct (enc_run (ex_cfg true) enc_new (OpSetSharedKeys t0 :: ops)) as [[e' rs]| | |] eqn:Er; try discriminate H. cbn [bind fst snd] in H.
  destruct (finish (ex_cfg true) e') as [b| | |] eqn:Ef; try discriminate H. cbn [bind] in H. injection H as E1 -> E3.
  exists e', rs. cbn [sd_ops sd_tree sd_bytes]. split; [exact Er|].
  split; [rewrite E1; apply Forall_forall; intros r Hin; symmetry; exact (repeat_spec _ _ _ Hin)|].
  split; [intros u Hin; rewrite forallb_forall in Ho; specialize (Ho _ Hin); discriminate|]. auto.
Qed.
Ltac s_fit := split; [apply good_opsb; vm_compute; reflexivity|]; split;
  [intros k H; cbn [sd_ops s_doc1 s_doc2 s_doc3 In] in H;
   repeat (destruct H as [H|H]; [try discriminate H; injection H as <-; vm_compute; discriminate|]); destruct H|];
  split; [cbn; repeat constructor; cbn; intuition discriminate|]; split; [right; vm_compute; reflexivity|vm_compute; discriminate].

(** A key of 17 bytes is stored as a text.  A later document puts its first 15 bytes into the
    table, and from then on the key is not found in the earlier document any more. *)
Theorem C90_refuted : exists c ds t1 t2 root,
  sort_ok (c_sort c) /\ series c [] [s_doc1 s_bs1] t1 /\ series c [] ds t2 /\ In (s_doc1 s_bs1) ds /\
  from_bytes (mk_env true 4096 s_bs1 None) = Ret (Ok root) /\
  (exists x, go (mk_env true 4096 s_bs1 (Some t1)) root [PKey (repeat 97 17)] = Ret (Some x)) /\
  go (mk_env true 4096 s_bs1 (Some t2)) root [PKey (repeat 97 17)] = Ret None /\
  go_sk t2 (mk_env true 4096 s_bs1 None) root [PKey (repeat 97 17)] = Ret None.
Proof.
  assert (W1 : wrote (ex_cfg true) [] (s_doc1 s_bs1) [[98;98]]) by (apply s_wrote with (n := 7%nat); vm_compute; reflexivity).
  assert (W2 : wrote (ex_cfg true) [[98;98]] (s_doc2 s_bs2) [[98;98]; repeat 97 15]) by (apply s_wrote with (n := 5%nat); vm_compute; reflexivity).
  assert (F1 : fit (ex_cfg true) [] (s_doc1 s_bs1)) by s_fit.
  assert (F2 : fit (ex_cfg true) [[98;98]] (s_doc2 s_bs2)) by s_fit.
  exists (ex_cfg true), [s_doc1 s_bs1; s_doc2 s_bs2], [[98;98]], [[98;98]; repeat 97 15], (V 20 10).
  split; [exact isort_ok|]. split; [econstructor; [exact W1|exact F1|constructor]|].
  split; [econstructor; [exact W1|exact F1|econstructor; [exact W2|exact F2|constructor]]|]. split; [left; reflexivity|].
  split; [vm_compute; reflexivity|]. split; [eexists; vm_compute; reflexivity|]. split; vm_compute; reflexivity.
Qed.
Print Assumptions C90_refuted.

(** Two documents that share the key "bb"; the table at the end is saved, restored, and reads
    both. *)
Example C90_example : exists ds tn,
  series (ex_cfg true) [] ds tn /\ ds = [s_doc1 s_bs1; s_doc3 s_bs3] /\ tn = [[98;98]; [99;99]] /\ lenZ tn < MAX_KEYS /\
  (forall d k, In d ds -> In (OpKey k) (sd_ops d) -> clear_of tn k) /\ table_bytes tn = 8.
Proof.
  assert (W1 : wrote (ex_cfg true) [] (s_doc1 s_bs1) [[98;98]]) by (apply s_wrote with (n := 7%nat); vm_compute; reflexivity).
  assert (W3 : wrote (ex_cfg true) [[98;98]] (s_doc3 s_bs3) [[98;98]; [99;99]]) by (apply s_wrote with (n := 7%nat); vm_compute; reflexivity).
  assert (F1 : fit (ex_cfg true) [] (s_doc1 s_bs1)) by s_fit.
  assert (F3 : fit (ex_cfg true) [[98;98]] (s_doc3 s_bs3)) by s_fit.
  eexists _, _. split; [econstructor; [exact W1|exact F1|econstructor; [exact W3|exact F3|constructor]]|].
  split; [reflexivity|]. split; [reflexivity|]. split; [vm_compute; reflexivity|]. split; [|vm_compute; reflexivity].
  intros d k [<-|[<-|[]]] H; cbn [sd_ops s_doc1 s_doc3 In] in H;
    repeat (destruct H as [H|H]; [try discriminate H; injection H as <-; intros Hl; first [vm_compute in Hl; discriminate Hl|intros [E|[E|[]]]; discriminate E]|]); destruct H.
Qed.

(** C84: reading an accepted document gives what the format says its bytes mean
    (src/value/mod.rs:158-350, 405-535; src/value/array.rs:60-260; src/value/dict.rs:150-260). *)
From Verif Require Import Prelude Float Decode Read ReadSpec UntrustedSpec Untrusted Safety PanicSpec Panics Properties_Safety GrammarSpec Grammar
  TextSpec MeaningSpec Meaning.
Local Open Scope Z_scope.

(** What is read from any value of an accepted document is exactly what MeaningSpec says of the
    library's view of the bytes: the differences from the format listed there are all there are. *)
Theorem C84_reads_exactly : forall e, wf_env e -> e_dbg e = true \/ modest e /\ no_long_run (e_data e) ->
  forall r v, from_bytes e = Ret (Ok r) -> reach e r v ->
  forall t, read_doc e v = Ret t <-> means AsLibrary (e_data e) (e_sk e) (v_pos v) (v_len v) t.
Proof. exact read_exact. Qed.
Print Assumptions C84_reads_exactly.
(** Where the format says what a value is, reading it gives that in exactly those cases in which
    both views agree on every part of it: no negative integer of less than eight bytes, no
    signalling NaN of four bytes. *)
Theorem C84_right_partial : forall e, wf_env e -> e_dbg e = true \/ modest e /\ no_long_run (e_data e) ->
  forall r v, from_bytes e = Ret (Ok r) -> reach e r v ->
  forall t, means AsFormat (e_data e) (e_sk e) (v_pos v) (v_len v) t ->
  (read_doc e v = Ret t <-> means AsBoth (e_data e) (e_sk e) (v_pos v) (v_len v) t).
Proof. exact read_right. Qed.
Print Assumptions C84_right_partial.
(** From the bytes alone: a document whose root has a meaning on which both agree is accepted and
    read as that. *)
Theorem C84_document_partial : forall e p l t, wf_env e -> e_dbg e = true \/ modest e /\ no_long_run (e_data e) ->
  document (e_data e) p l -> means AsBoth (e_data e) (e_sk e) p l t ->
  from_bytes e = Ret (Ok (V p l)) /\ read_doc e (V p l) = Ret t.
Proof. exact document_read. Qed.
Print Assumptions C84_document_partial.
(** Every part of an accepted document has a meaning, unless a float is cut short. *)
Theorem C84_meaningful : forall e, wf_env e -> e_dbg e = true \/ modest e /\ no_long_run (e_data e) ->
  forall r v, from_bytes e = Ret (Ok r) -> whole_floats e r -> within e r v ->
  exists t, means AsLibrary (e_data e) (e_sk e) (v_pos v) (v_len v) t /\ read_doc e v = Ret t.
Proof. exact meaningful. Qed.
Print Assumptions C84_meaningful.
(** The same bytes never mean two things, whichever way they are understood. *)
Theorem C84_one_meaning : forall w bs table p l t t', means w bs table p l t -> means w bs table p l t' -> t = t'.
Proof. exact means_single. Qed.
Print Assumptions C84_one_meaning.
(** The middle view is where the other two agree. *)
Theorem C84_agree : forall bs table p l t,
  means AsBoth bs table p l t <-> means AsFormat bs table p l t /\ means AsLibrary bs table p l t.
Proof. exact both_views. Qed.
Print Assumptions C84_agree.

(** The integer -3000 in two bytes, as other implementations of the format write it: an accepted
    document, which is read as 62536. *)
Definition minus_3000 : list Z := [0x11; 0x48; 0xF4; 0x00; 0x80; 0x02].
Theorem C84_refuted : exists e p l, wf_env e /\ from_bytes e = Ret (Ok (V p l)) /\
  means AsFormat (e_data e) (e_sk e) p l (TInt (-3000)) /\ read_doc e (V p l) = Ret (TInt 62536).
Proof.
  exists (at4g true minus_3000), 0, 4. split; [apply at4g_wf; vm_compute; reflexivity|]. split; [vm_compute; reflexivity|]. split; [|vm_compute; reflexivity].
  apply (means_int AsFormat minus_3000 None 0 4 0x11 (0x48 + 256 * (0xF4 + 256 * 0))); [reflexivity|lia| |reflexivity].
  apply nr_more; [reflexivity|]. apply nr_more; [reflexivity|]. apply nr_none.
Qed.
Print Assumptions C84_refuted.
(** A signalling NaN of four bytes comes out as another NaN. *)
Definition signalling : list Z := [0x20; 0x00; 0x01; 0x00; 0x80; 0x7F; 0x80; 0x03].
Theorem C84_refuted_nan : exists e p l, wf_env e /\ from_bytes e = Ret (Ok (V p l)) /\
  means AsFormat (e_data e) (e_sk e) p l (TF32 0x7F800001) /\ read_doc e (V p l) = Ret (TF32 0x7FC00001).
Proof.
  exists (at4g true signalling), 0, 6. split; [apply at4g_wf; vm_compute; reflexivity|]. split; [vm_compute; reflexivity|]. split; [|vm_compute; reflexivity].
  apply (means_float AsFormat signalling None 0 6 0x20 (0x01 + 256 * (0x00 + 256 * (0x80 + 256 * (0x7F + 256 * 0))))); [reflexivity|lia|lia| |reflexivity].
  apply nr_more; [reflexivity|]. apply nr_more; [reflexivity|]. apply nr_more; [reflexivity|]. apply nr_more; [reflexivity|]. apply nr_none.
Qed.
Print Assumptions C84_refuted_nan.

(** A document by hand: the dict with the one entry "ab", -3. *)
Definition one_entry : list Z := [0x42; 0x61; 0x62; 0x00; 0x70; 0x01; 0x80; 0x03; 0x0F; 0xFD; 0x80; 0x03].
Definition one_entry_tree : tree := TDict [([0x61; 0x62], TInt (-3))].
Example C84_example_means : means AsBoth one_entry None 4 6 one_entry_tree.
Proof.
  apply (means_dict AsBoth one_entry None 4 6 0x70 false 1 6); [reflexivity|lia| |].
  - exists 0x70, 0x01. split; [reflexivity|]. split; [reflexivity|]. split; [lia|]. split; [reflexivity|]. left. repeat split.
  - apply (entries_more AsBoth one_entry None false 6 1 0 6 [0x61; 0x62] 8 2); [lia| | | | |apply entries_none].
    + right. apply (lead_here one_entry 6 2 false 0x80 6 0x42); try reflexivity; try lia. exists 0x80, 0x03. repeat split.
    + apply (key_string AsBoth one_entry None 0 6 0x42 [0x61; 0x62]); [reflexivity|lia| |].
      * left. split; [reflexivity|]. split; [reflexivity|]. intros i Hi. assert (i = 0 \/ i = 1) as [-> | ->] by (cbn in Hi; lia); reflexivity.
      * left. split; [|reflexivity]. apply TextProofs.valid_iff. vm_compute. reflexivity.
    + left. split; [reflexivity|]. split; [reflexivity|]. exists 0x0F. split; [reflexivity|lia].
    + apply (means_small AsBoth one_entry None 8 2 0x0F 0xFD); [reflexivity|lia|reflexivity].
Qed.
Example C84_example_document : document one_entry 4 6.
Proof. apply (accepted_exactly (at4g true one_entry)); [apply at4g_wf; vm_compute; reflexivity|left; reflexivity|vm_compute; reflexivity]. Qed.
Example C84_example_read : read_doc (at4g true one_entry) (V 4 6) = Ret one_entry_tree.
Proof.
  apply (C84_document_partial (at4g true one_entry) 4 6 one_entry_tree); [apply at4g_wf; vm_compute; reflexivity|left; reflexivity|exact C84_example_document|exact C84_example_means].
Qed.
(** The larger example document, in either build: what its bytes mean, from reading it. *)
Example C84_example_hypotheses : forall dbg, wf_env (ex_env dbg) /\ (e_dbg (ex_env dbg) = true \/ modest (ex_env dbg) /\ no_long_run (e_data (ex_env dbg))) /\
  from_bytes (ex_env dbg) = Ret (Ok (V 24 8)) /\ whole_floats (ex_env dbg) (V 24 8) /\ within (ex_env dbg) (V 24 8) (V 24 8).
Proof.
  intros dbg. split; [apply at4g_wf; vm_compute; reflexivity|]. split.
  { destruct dbg; [left; reflexivity|right]. split; [apply modestb_ok; vm_compute; reflexivity|apply no_long_runb_ok; vm_compute; reflexivity]. }
  split; [destruct dbg; vm_compute; reflexivity|]. split; [|constructor]. apply whole_floatsb. destruct dbg; vm_compute; reflexivity.
Qed.
Example C84_example_meaning : exists t, means AsLibrary (e_data (ex_env true)) (e_sk (ex_env true)) 24 8 t /\ read_doc (ex_env true) (V 24 8) = Ret t.
Proof.
  destruct (C84_example_hypotheses true) as (H1 & H2 & H3 & H4 & H5). exact (C84_meaningful _ H1 H2 _ _ H3 H4 H5).
Qed.
(** A number that no shared key has ends the dict for the library, and is no key for the format. *)
Example C84_example_unknown_key : let e := at4g true [0x70; 0x01; 0x00; 0x07; 0x00; 0x01; 0x80; 0x03] in
  read_doc e (V 0 6) = Ret (TDict []) /\ means AsLibrary (e_data e) (e_sk e) 0 6 (TDict []) /\ forall t, ~ means AsFormat (e_data e) (e_sk e) 0 6 t.
Proof.
  cbv zeta. split; [vm_compute; reflexivity|]. split.
  - apply (C84_reads_exactly (at4g true [0x70; 0x01; 0x00; 0x07; 0x00; 0x01; 0x80; 0x03])) with (r := V 0 6) (v := V 0 6);
      [apply at4g_wf; vm_compute; reflexivity|left; reflexivity|vm_compute; reflexivity|constructor|vm_compute; reflexivity].
  - intros t H. cbn [e_data e_sk at4g] in H.
    assert (Hb : byte_at [0x70; 0x01; 0x00; 0x07; 0x00; 0x01; 0x80; 0x03] 0 0x70) by reflexivity.
    inversion H; subst; repeat match goal with K : byte_at _ 0 _ |- _ => unfold byte_at in K; cbn in K; injection K as <- end; try lia.
    match goal with Hh : header _ _ _ _ _ _ |- _ => destruct Hh as (b0 & b1 & B0 & B1 & _ & -> & Hh); cbn in B0, B1; injection B0 as <-; injection B1 as <-; cbn in Hh end.
    match goal with Hh : _ \/ _ |- _ => destruct Hh as [(_ & Hn & ->)|[(Hn & _)|(Hn & _)]]; [|discriminate|discriminate] end.
    match goal with He : entries _ _ _ _ _ _ _ |- _ => inversion He as [|? ? ? kp kl k p l t' es' Hn' width Hk Hkk|? ? ? ? ? Hw]; subst; [lia| |discriminate] end.
    destruct Hk as [(-> & _)|Hk]; [|inversion Hk; subst; match goal with K : byte_at _ 2 _ |- _ => unfold byte_at in K; cbn in K; injection K as <- end; lia].
    inversion Hkk; subst; try discriminate; match goal with K : byte_at _ 2 _ |- _ => unfold byte_at in K; cbn in K; injection K as <- end; lia.
Qed.

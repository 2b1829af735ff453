(** C91: the size of a value, announced, reported and real (src/value/mod.rs,
    src/encoder/encodable.rs). *)
From Verif Require Import Prelude Lib SharedKeys Decode Read ReadSpec Safety Navigate GrammarSpec OccupySpec OccupyProofs
  Holds Encodable BuilderSpec Isort Properties_Safety.

(** A value that is neither a collection nor a pointer is determined by the bytes it occupies:
    wherever the same bytes are found, in whatever build of the program, and whatever surrounds
    them, every accessor gives an answer and gives the same one. *)
Theorem C91_partial : forall e v e' v' n,
  wf_env e -> wf_env e' -> inslice e v -> inslice e' v' -> n <= v_len v -> n <= v_len v' ->
  same_bytes (e_data e) (v_pos v) (e_data e') (v_pos v') n ->
  occupies (e_data e) (v_pos v) (v_len v) n -> answers_alike e v e' v'.
Proof. exact alike. Qed.
Print Assumptions C91_partial.
(** [required_size] reports no more than that, and exactly that when the length prefix is not
    longer than necessary. *)
Theorem C91_reported : forall e v n,
  wf_env e -> inslice e v -> occupies (e_data e) (v_pos v) (v_len v) n ->
  exists m, required_size e v = Ret m /\ 2 <= m <= n /\ (m = n <-> concise (e_data e) (v_pos v) (v_len v)).
Proof. exact occupied_size. Qed.
Print Assumptions C91_reported.
(** In an accepted document every such value occupies bytes of the document, except that a number
    may reach beyond what the pointer to it leaves for it, and a text may lack its prefix. *)
Theorem C91_accepted : forall e r v b,
  wf_env e -> from_bytes e = Ret (Ok r) -> reach e r v -> byte_at (e_data e) (v_pos v) b -> b < 96 ->
  (exists n, occupies (e_data e) (v_pos v) (v_len v) n /\ v_pos v + n <= lenZ (e_data e)) \/
  b < 64 /\ v_len v < scalar_size b /\ v_pos v + scalar_size b <= lenZ (e_data e) \/
  64 <= b /\ b mod 16 = 15 /\ forall m x, ~ prefix (e_data e) (v_pos v + 1) (v_pos v + v_len v) m x.
Proof. exact accepted_occupies. Qed.
Print Assumptions C91_accepted.
(** A value that is not kept in a slot is written in as many bytes as were announced for it, and
    reports that size when it is read, wherever it is. *)
Theorem C91_written : forall dbg v,
  wf_enc v -> enc_ok v = true -> to_sized_value v = None ->
  exists bs, write_to dbg v (fleece_size v) false = Ret (Some bs) /\ lenZ bs = fleece_size v /\
  forall e p l, holds (e_data e) p bs -> lenZ bs <= l -> required_size e (V p l) = Ret (fleece_size v).
Proof. exact written_size. Qed.
Print Assumptions C91_written.

(** A double in the middle of a document, and the same bytes elsewhere. *)
Definition ex_alone : list Z := [1; 2; 3; 4; 40; 0; 0; 0; 0; 0; 0; 0; 0; 64; 9; 9].
Lemma eight_same : same_bytes ex_bytes 8 ex_alone 4 10.
Proof.
  intros i Hi. assert (i = 0 \/ i = 1 \/ i = 2 \/ i = 3 \/ i = 4 \/ i = 5 \/ i = 6 \/ i = 7 \/ i = 8 \/ i = 9) as H by lia.
  repeat (destruct H as [->|H]; [vm_compute; reflexivity|]). subst i. vm_compute. reflexivity.
Qed.
Example C91_example : from_bytes (ex_env true) = Ret (Ok (V 24 8)) /\ reach (ex_env true) (V 24 8) (V 8 14) /\
  occupies ex_bytes 8 14 10 /\ required_size (ex_env true) (V 8 14) = Ret 10 /\
  answers_alike (ex_env true) (V 8 14) (at4g false ex_alone) (V 4 11).
Proof.
  split; [vm_compute; reflexivity|]. split; [exact ex_env_reach|].
  assert (Ho : occupies ex_bytes 8 14 10).
  { split; [lia|]. exists 40. split; [reflexivity|]. left. split; [lia|reflexivity]. }
  split; [exact Ho|]. split; [vm_compute; reflexivity|].
  apply (C91_partial (ex_env true) (V 8 14) (at4g false ex_alone) (V 4 11) 10); try (cbn [v_len]; lia).
  - apply at4g_wf; vm_compute; reflexivity.
  - apply at4g_wf; vm_compute; reflexivity.
  - vm_compute. intuition congruence.
  - vm_compute. intuition congruence.
  - exact eight_same.
  - exact Ho.
Qed.
(** A text of 20 bytes, with its prefix. *)
Definition ex_long : list Z := [79; 20] ++ repeat 97 20 ++ [128; 11].
Example C91_example_text : from_bytes (at4g true ex_long) = Ret (Ok (V 0 22)) /\ occupies ex_long 0 22 22 /\
  concise ex_long 0 22 /\ required_size (at4g true ex_long) (V 0 22) = Ret 22.
Proof.
  assert (Ho : occupies ex_long 0 22 22).
  { split; [lia|]. exists 79. split; [reflexivity|]. right. right. split; [lia|]. split; [reflexivity|]. exists 1, 20. split; [|reflexivity].
    exists [20]. split; [apply dg_last; [lia|reflexivity|lia]|]. split; [reflexivity|]. split; [lia|reflexivity]. }
  split; [vm_compute; reflexivity|]. split; [exact Ho|].
  destruct (C91_reported (at4g true ex_long) (V 0 22) 22) as (m & Hm & _ & Hi).
  - apply at4g_wf; vm_compute; reflexivity.
  - vm_compute. intuition congruence.
  - exact Ho.
  - assert (E : required_size (at4g true ex_long) (V 0 22) = Ret 22) by (vm_compute; reflexivity). split; [|exact E].
    apply Hi. rewrite E in Hm. congruence.
Qed.
Example C91_example_written : wf_enc (EStr (repeat 97 20)) /\ enc_ok (EStr (repeat 97 20)) = true /\
  to_sized_value (EStr (repeat 97 20)) = None /\ fleece_size (EStr (repeat 97 20)) = 22.
Proof. split; [apply wf_encb_ok; vm_compute; reflexivity|]. vm_compute. auto. Qed.

(** The text "ab" with a prefix it does not need is accepted and occupies four bytes; three are
    reported, and they do not determine it. *)
Theorem C91_refuted : exists e e' v m,
  from_bytes e = Ret (Ok v) /\ from_bytes e' = Ret (Ok v) /\ required_size e v = Ret m /\ required_size e' v = Ret m /\
  (forall i, 0 <= i < m -> nthZ (e_data e) (v_pos v + i) = nthZ (e_data e') (v_pos v + i)) /\
  to_str e v = Ret [97; 98] /\ to_str e' v = Ret [97; 99].
Proof.
  exists (at4g true [79; 2; 97; 98; 128; 2]), (at4g true [79; 2; 97; 99; 128; 2]), (V 0 4), 3.
  repeat match goal with |- _ /\ _ => split end; try (vm_compute; reflexivity).
  intros i Hi. assert (i = 0 \/ i = 1 \/ i = 2) as [-> | [-> | ->]] by lia; reflexivity.
Qed.
Print Assumptions C91_refuted.
(** For a [u16] above 2047 two bytes are announced; they are too few, and nothing is written. *)
Theorem C91_refuted_announced : forall dbg z, 2047 < z <= 65535 ->
  wf_enc (EInt U16 z) /\ fleece_size (EInt U16 z) = 2 /\ write_to dbg (EInt U16 z) 2 false = Ret None.
Proof. exact u16_announced. Qed.
Print Assumptions C91_refuted_announced.

(** C72: what [is_mutable] says of the values of a document (src/value/mod.rs).
    C73: comparing owned values (src/alloced.rs). *)
From Coq Require Import ZifyBool ZifyNat ZifyN.
From Verif Require Import Prelude Lib SharedKeys Decode Read ReadSpec Safety Navigate Alloced Place IsMutable Parity
  Properties_Safety Properties_Place.
Ltac Zify.zify_post_hook ::= Z.div_mod_to_equations.

(* ---------- C72 ---------- *)

(** A document at an even address: no value reached in it is taken for a mutable one. *)
Theorem C72_not_mutable : forall e r v,
  wf_env e -> e_base e mod 2 = 0 -> from_bytes e = Ret (Ok r) -> reach e r v -> is_mutable e v = false.
Proof.
  intros e r v Hwf Hb Hr Hv. rewrite (is_mutable_base e r v Hwf Hr Hv). rewrite Zodd_mod, Hb. reflexivity.
Qed.
Print Assumptions C72_not_mutable.

(** The answer is a property of where the buffer is, the same for all values in it. *)
Theorem C72_same_for_all : forall e r v,
  wf_env e -> from_bytes e = Ret (Ok r) -> reach e r v -> is_mutable e v = Z.odd (e_base e).
Proof. exact is_mutable_base. Qed.
Print Assumptions C72_same_for_all.

(** In a slice that begins at an odd address every value, read-only as it is, is said to be
    mutable: the same bytes, accepted in the same way, one byte further in memory. *)
Theorem C72_refuted_odd_address : exists e r v,
  wf_env e /\ from_bytes e = Ret (Ok r) /\ reach e r v /\ is_mutable e v = true /\
  from_bytes (moved e (e_base e - 1)) = Ret (Ok r) /\ is_mutable (moved e (e_base e - 1)) v = false.
Proof.
  exists (moved (ex_env true) 4294967297), (V 24 8), (V 18 12).
  split. { split; [apply bytesb; vm_compute; reflexivity|]. cbn [moved e_base e_data]. unfold two63. vm_compute; split; congruence. }
  split; [vm_compute; reflexivity|]. split.
  { apply reach_step with (V 24 8); [apply reach_refl|]. apply st_get with 3 2; try (vm_compute; reflexivity). split; vm_compute; congruence. }
  split; [vm_compute; reflexivity|]. split; vm_compute; reflexivity.
Qed.
Print Assumptions C72_refuted_odd_address.

Example C72_example : wf_env (ex_env true) /\ e_base (ex_env true) mod 2 = 0 /\
  from_bytes (ex_env true) = Ret (Ok (V 24 8)) /\ reach (ex_env true) (V 24 8) (V 8 14) /\ is_mutable (ex_env true) (V 8 14) = false.
Proof.
  destruct ex_env_wf as (H1 & _ & _ & H2 & _). split; [exact H1|]. split; [reflexivity|]. split; [exact H2|].
  split; [exact ex_env_reach|reflexivity].
Qed.

(* ---------- C73 ---------- *)

(** [==] on owned values is an equivalence, [cmp] a total order that agrees with it. *)
Theorem C73_order : forall a b c,
  alloced_eq a a = true /\
  alloced_eq a b = alloced_eq b a /\
  (alloced_eq a b = true -> alloced_eq b c = true -> alloced_eq a c = true) /\
  (alloced_cmp a b = Eq <-> alloced_eq a b = true) /\
  alloced_cmp b a = CompOpp (alloced_cmp a b) /\
  (alloced_cmp a b = Lt -> alloced_cmp b c = Lt -> alloced_cmp a c = Lt) /\
  alloced_eq a (alloced_clone a) = true.
Proof.
  intros a b c. unfold alloced_eq, alloced_cmp, alloced_clone.
  split; [lia|]. split; [lia|]. split; [lia|]. split; [rewrite Z.compare_eq_iff; lia|].
  split; [apply Z.compare_antisym|]. split; [rewrite !Z.compare_lt_iff; lia|lia].
Qed.
Print Assumptions C73_order.

(** Two buffers that are alive together do not overlap. *)
Definition apart (e1 e2 : env) : Prop :=
  e_base e1 + lenZ (e_data e1) <= e_base e2 \/ e_base e2 + lenZ (e_data e2) <= e_base e1.

(** Two copies of a document made by two calls are never equal, whatever they contain. *)
Theorem C73_copies_differ : forall dbg1 dbg2 base1 base2 sk1 sk2 data1 data2 a b,
  wf_env (mk_env dbg1 base1 data1 sk1) -> wf_env (mk_env dbg2 base2 data2 sk2) ->
  apart (mk_env dbg1 base1 data1 sk1) (mk_env dbg2 base2 data2 sk2) ->
  clone_from_bytes dbg1 base1 sk1 data1 = Ret (Ok a) -> clone_from_bytes dbg2 base2 sk2 data2 = Ret (Ok b) ->
  alloced_eq a b = false.
Proof.
  assert (Hin : forall dbg base sk data a, wf_env (mk_env dbg base data sk) -> clone_from_bytes dbg base sk data = Ret (Ok a) ->
    al_env a = mk_env dbg base data sk /\ 0 <= v_pos (al_val a) < lenZ data).
  { intros dbg base sk data a Hwf H. unfold clone_from_bytes in H. cbv zeta in H. apply bindr_inv in H as (v & Hv & H).
    apply ret_inj in H. injection H as <-. cbn [al_env al_val]. split; [reflexivity|].
    destruct (reach_extent _ Hwf v v Hv (reach_refl _ v)) as (n & _ & H1 & H2 & H3). cbn [e_data] in H3. lia. }
  intros dbg1 dbg2 base1 base2 sk1 sk2 data1 data2 a b W1 W2 Ha H1 H2.
  apply Hin in H1 as (E1 & P1); [|exact W1]. apply Hin in H2 as (E2 & P2); [|exact W2].
  unfold apart in Ha. cbn [e_base e_data] in Ha. unfold alloced_eq, al_addr. rewrite E1, E2. cbn [e_base]. lia.
Qed.
Print Assumptions C73_copies_differ.

(** So [==] is not equality of content: two owned copies of the same bytes read alike (C53) and
    are not equal. *)
Theorem C73_not_by_content : exists base base' data a b,
  apart (mk_env true base data None) (mk_env true base' data None) /\
  clone_from_bytes true base None data = Ret (Ok a) /\ clone_from_bytes true base' None data = Ret (Ok b) /\
  same_answers (al_env a) (al_env b) /\ al_val a = al_val b /\ alloced_eq a b = false.
Proof.
  exists 4294967296, 4294967396, ex_bytes, (mk_alloced (mk_env true 4294967296 ex_bytes None) (V 24 8)),
    (mk_alloced (mk_env true 4294967396 ex_bytes None) (V 24 8)).
  split. { left. vm_compute. congruence. }
  split; [vm_compute; reflexivity|]. split; [vm_compute; reflexivity|]. split.
  { cbn [al_env]. apply C53_reads_alike; (split; [apply bytesb; vm_compute; reflexivity|]; cbn [e_base e_data]; unfold two63; vm_compute; split; congruence). }
  split; vm_compute; reflexivity.
Qed.
Print Assumptions C73_not_by_content.

(** Equal owned values made from documents do read alike: they are in the same buffer, and are
    the same value there. *)
Theorem C73_equal_alike : forall dbg1 dbg2 base1 base2 sk1 sk2 data1 data2 a b,
  wf_env (mk_env dbg1 base1 data1 sk1) -> wf_env (mk_env dbg2 base2 data2 sk2) ->
  mk_env dbg1 base1 data1 sk1 = mk_env dbg2 base2 data2 sk2 \/
    apart (mk_env dbg1 base1 data1 sk1) (mk_env dbg2 base2 data2 sk2) ->
  clone_from_bytes dbg1 base1 sk1 data1 = Ret (Ok a) -> clone_from_bytes dbg2 base2 sk2 data2 = Ret (Ok b) ->
  alloced_eq a b = true -> a = b.
Proof.
  intros dbg1 dbg2 base1 base2 sk1 sk2 data1 data2 a b W1 W2 [Hs|Ha] H1 H2 He.
  - injection Hs as <- <- <- <-. rewrite H1 in H2. injection H2 as ->. reflexivity.
  - rewrite (C73_copies_differ _ _ _ _ _ _ _ _ _ _ W1 W2 Ha H1 H2) in He. discriminate.
Qed.
Print Assumptions C73_equal_alike.

Example C73_example : exists a,
  wf_env (mk_env true 4294967296 ex_bytes None) /\ clone_from_bytes true 4294967296 None ex_bytes = Ret (Ok a) /\
  alloced_eq a (alloced_clone a) = true /\
  (exists x, alloced_to_array a = Ret (Some x) /\ alloced_eq a x = true).
Proof.
  exists (mk_alloced (mk_env true 4294967296 ex_bytes None) (V 24 8)). split; [exact (proj1 ex_env_wf)|].
  split; [vm_compute; reflexivity|]. split; [vm_compute; reflexivity|].
  eexists. split; vm_compute; reflexivity.
Qed.

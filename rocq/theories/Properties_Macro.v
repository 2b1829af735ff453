(** C68: the [fleece!] macro (src/lib.rs). *)
From Verif Require Import Prelude Utf8 Float SharedKeys Decode Read Encodable Encoder BuilderSpec LayoutSpec TotalSpec
  Alloced Values Macro MacroSpec Isort MacroProofs Properties_Encoder.

(** The value the macro returns reads as the literal.  As for the encoder itself (C07) this is proved
    for the values the encoder handles and documents whose layout works out. *)
Theorem C68_dict_partial : forall c base l,
  sort_ok (c_sort c) -> good_lit (LitDict l) -> layout_ok (c_ua c) 0 (lit_ops (LitDict l)) ->
  ops_size (lit_ops (LitDict l)) <= MAX_WIDE -> 0 <= base -> base + ops_size (lit_ops (LitDict l)) < two64 ->
  exists a t', fleece_dict c base l = Ret a /\ read_doc (al_env a) (al_val a) = Ret t' /\ tsim (lit_tree (LitDict l)) t'.
Proof. intros c base l Hs. exact (literal_reads c base (LitDict l) Hs I). Qed.
Print Assumptions C68_dict_partial.
Theorem C68_array_partial : forall c base l,
  sort_ok (c_sort c) -> good_lit (LitArr l) -> layout_ok (c_ua c) 0 (lit_ops (LitArr l)) ->
  ops_size (lit_ops (LitArr l)) <= MAX_WIDE -> 0 <= base -> base + ops_size (lit_ops (LitArr l)) < two64 ->
  exists a t', fleece_array c base l = Ret a /\ read_doc (al_env a) (al_val a) = Ret t' /\ tsim (lit_tree (LitArr l)) t'.
Proof. intros c base l Hs. exact (literal_reads c base (LitArr l) Hs I). Qed.
Print Assumptions C68_array_partial.

(** The macro's [unsafe] assumptions hold for every literal that stays below the size limit,
    whatever keys and values are in it: it may panic or hang (on the values of C69), but it never
    reaches undefined behaviour. *)
Theorem C68_no_undefined_behaviour_partial : forall c base l,
  sort_ok (c_sort c) -> rust_lit (LitDict l) ->
  ops_size (lit_ops (LitDict l)) <= MAX_WIDE -> 2147483648 <= base -> base + ops_size (lit_ops (LitDict l)) < two63 ->
  fleece_dict c base l = Panic \/
  (~ Forall (answered_op (c_dbg c)) (lit_ops (LitDict l)) /\ fleece_dict c base l = Diverge) \/
  exists a, fleece_dict c base l = Ret a.
Proof. intros c base l Hs. exact (literal_result c base (LitDict l) Hs I). Qed.
Print Assumptions C68_no_undefined_behaviour_partial.
Theorem C68_no_undefined_behaviour_array_partial : forall c base l,
  sort_ok (c_sort c) -> rust_lit (LitArr l) ->
  ops_size (lit_ops (LitArr l)) <= MAX_WIDE -> 2147483648 <= base -> base + ops_size (lit_ops (LitArr l)) < two63 ->
  fleece_array c base l = Panic \/
  (~ Forall (answered_op (c_dbg c)) (lit_ops (LitArr l)) /\ fleece_array c base l = Diverge) \/
  exists a, fleece_array c base l = Ret a.
Proof. intros c base l Hs. exact (literal_result c base (LitArr l) Hs I). Qed.
Print Assumptions C68_no_undefined_behaviour_array_partial.

(** Above the limit the error the encoder reports is declared unreachable: undefined behaviour. *)
Theorem C68_refuted_too_large : forall c base,
  fleece_array c base [LitVal (EData (zeros (2 ^ 30))); LitVal (EF64 4611686018427387904)] = UB.
Proof. exact oversized_literal. Qed.
Print Assumptions C68_refuted_too_large.

(** [fleece!{"ab": [1, {"key": "value", "none": null}], "cd": 2.0, "long key of this literal": {}}] *)
Definition ex_lit : list (list Z * lit) :=
  [([97;98], LitArr [LitVal (EInt U32 1); LitDict [([107;101;121], LitVal (EStr [118;97;108;117;101])); ([110;111;110;101], LitVal ENull)]]);
   ([99;100], LitVal (EF64 4611686018427387904));
   ([108;111;110;103;32;107;101;121;32;111;102;32;116;104;105;115;32;108;105;116;101;114;97;108], LitDict [])].
Example C68_example : forall dbg,
  good_lit (LitDict ex_lit) /\ rust_lit (LitDict ex_lit) /\ layout_ok (fun _ => false) 0 (lit_ops (LitDict ex_lit)) /\
  ops_size (lit_ops (LitDict ex_lit)) <= 1000 /\
  exists a, fleece_dict (ex_cfg dbg) 4294967296 ex_lit = Ret a /\ read_doc (al_env a) (al_val a) = Ret (lit_tree (LitDict ex_lit)).
Proof.
  intros dbg. assert (Hg : good_lit (LitDict ex_lit)) by (apply good_opsb; vm_compute; reflexivity).
  split; [exact Hg|]. split; [exact (good_rust_lit _ Hg)|]. split; [right; vm_compute; reflexivity|]. split; [vm_compute; discriminate|].
  destruct dbg; eexists; (split; [vm_compute; reflexivity|]); vm_compute; reflexivity.
Qed.

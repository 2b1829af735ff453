(** C83: what [{:?}] shows (the [Debug] impls of src/value). *)
From Verif Require Import Prelude Float SharedKeys Decode Read Encodable Encoder ReadSpec BuilderSpec LayoutSpec EncoderInv EncoderClean EncoderProtocol De UntrustedSpec Untrusted Safety Navigate Properties_Safety Properties_Encoder Show ShowSpec ShowProofs.

(** A value that can be read is shown with exactly the contents read, and a value whose contents
    are shown can be read: the same numbers, texts and bytes, the same elements and entries in the
    same order. *)
Theorem C83_shows_contents : forall e v t,
  read_doc e v = Ret t <-> exists s, show_doc e v = Ret s /\ content s = Some t.
Proof. exact shown_content. Qed.
Print Assumptions C83_shows_contents.
(** [[7, "xyz", {"ab": 2.0}]] *)
Example C83_example :
  show_doc (ex_env true) (V 24 8) =
    Ret (ShArr [ShNum TyShort 7; ShStr [120;121;122]; ShDict [([97;98], ShFloat TyDouble64 4611686018427387904)]]) /\
  read_doc (ex_env true) (V 24 8) = Ret (TArr [TInt 7; TStr [120;121;122]; TDict [([97;98], TF64 4611686018427387904)]]).
Proof. split; vm_compute; reflexivity. Qed.

(** The type named is the one [value_type] gives. *)
Theorem C83_names_type : forall e v s, show_doc e v = Ret s -> value_type e v = Ret (type_shown s).
Proof. exact shown_type. Qed.
Print Assumptions C83_names_type.

(** Every value of an accepted document is shown, with all its contents, when no float was cut
    short; showing it changes nothing that reading would see. *)
Theorem C83_accepted_shown : forall e r v,
  wf_env e -> from_bytes e = Ret (Ok r) -> whole_floats e r -> within e r v ->
  exists s t, show_doc e v = Ret s /\ content s = Some t /\ read_doc e v = Ret t.
Proof. exact accepted_shown. Qed.
Print Assumptions C83_accepted_shown.
Example C83_example_accepted : wf_env (ex_env true) /\ from_bytes (ex_env true) = Ret (Ok (V 24 8)) /\ whole_floats (ex_env true) (V 24 8) /\
  within (ex_env true) (V 24 8) (V 24 8).
Proof.
  split; [apply at4g_wf; vm_compute; reflexivity|]. split; [vm_compute; reflexivity|]. split; [apply whole_floatsb; vm_compute; reflexivity|constructor].
Qed.

(** Two values that look the same have the same contents, wherever they are stored. *)
Theorem C83_tells_apart : forall e v e' v' s t,
  show_doc e v = Ret s -> show_doc e' v' = Ret s -> read_doc e v = Ret t -> read_doc e' v' = Ret t.
Proof. exact looks_decide. Qed.
Print Assumptions C83_tells_apart.
(** [[300]], shown alike from two documents whose bytes differ: with a narrow and with a wide
    slot. *)
Definition show_narrow : env := at4g true [0x60;1; 1;0x2C; 0x80;2].
Definition show_wide : env := at4g true [0x68;1; 1;0x2C;0;0; 0x80;3].
Example C83_example_alike :
  from_bytes show_narrow = Ret (Ok (V 0 4)) /\ from_bytes show_wide = Ret (Ok (V 0 6)) /\
  show_doc show_narrow (V 0 4) = Ret (ShArr [ShNum TyShort 300]) /\
  show_doc show_wide (V 0 6) = Ret (ShArr [ShNum TyShort 300]).
Proof. repeat (split; [vm_compute; reflexivity|]). vm_compute. reflexivity. Qed.

(** A document finished by the encoder is shown as what was written, up to the order of dict
    entries. *)
Theorem C83_written : forall c prefix ops e' rs t,
  sort_ok (c_sort c) -> lenZ prefix mod 2 = 0 ->
  Forall good_op ops -> keys_ok false ops ->
  layout_ok (c_ua c) (lenZ prefix) ops -> lenZ prefix + ops_size ops <= MAX_WIDE ->
  enc_run c (enc_new_to_vec prefix) ops = Ret (e', rs) -> Forall (eq (Ok tt)) rs ->
  b_finish (fst (b_run b_init ops)) = Some t ->
  exists D, finish c e' = Ret (prefix ++ D) /\
    forall dbg base, addressable base (prefix ++ D) ->
      let m := mk_env dbg base (prefix ++ D) (en_sk e') in
      exists v s t', from_bytes m = Ret (Ok v) /\ show_doc m v = Ret s /\ content s = Some t' /\ tsim t t'.
Proof. exact written_shown. Qed.
Print Assumptions C83_written.
Example C83_example_written : (r <- run_doc (ex_cfg true) [] ex_ops ;; v <- from_bytes (mk_env true 4096 (snd (fst r)) None) ;;
  match v with Ok x => s <- show_doc (mk_env true 4096 (snd (fst r)) None) x ;; Ret (content s) | Err _ => Panic end) = Ret (Some ex_tree).
Proof. vm_compute. reflexivity. Qed.

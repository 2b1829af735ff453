(** C88: the number of entries a dict lookup looks at. *)
From Verif Require Import Prelude Lib Utf8 Float SharedKeys Decode Read Encodable Encoder BuilderSpec Isort ValueSpec
  Safety Properties_Encoder LookupCost LookupCostProofs.

(** Recording which entries are compared changes no answer (and no panic). *)
Theorem C88_recorded : forall e v key sk,
  dict_get e v key = (r <- get_trace 66 e v key ;; Ret (fst r)) /\
  dict_get_sk e v key sk = (r <- get_trace_sk 66 e v key sk ;; Ret (fst r)).
Proof. intros e v key sk. exact (conj (trace_get e v key) (trace_get_sk e v key sk)). Qed.
Print Assumptions C88_recorded.

(** In a dict of [n] entries, sorted or not, in a document accepted or not, a lookup that
    answers has looked at no more than log2(n) + 1 entries, none of them twice and none
    outside the dict. *)
Theorem C88_logarithmic : forall f e v key n o t,
  dict_len e v = Ret n -> get_trace f e v key = Ret (o, t) ->
  ((n <= 0 /\ t = []) \/ (0 < n /\ 2 ^ lenZ t <= 2 * n)) /\ NoDup t /\ Forall (fun i => 0 <= i < n) t.
Proof. exact get_trace_bound. Qed.
Print Assumptions C88_logarithmic.
Theorem C88_logarithmic_shared : forall f e v key sk n o t,
  dict_len e v = Ret n -> get_trace_sk f e v key sk = Ret (o, t) ->
  ((n <= 0 /\ t = []) \/ (0 < n /\ 2 ^ lenZ t <= 2 * n)) /\ NoDup t /\ Forall (fun i => 0 <= i < n) t.
Proof. exact get_trace_sk_bound. Qed.
Print Assumptions C88_logarithmic_shared.

(** And the loop always ends: letting it run for longer than 66 rounds makes no difference to
    the outcome, whatever that is ([n] is a [usize]). *)
Theorem C88_ends : forall f e v key n, (66 <= f)%nat -> dict_len e v = Ret n -> n < 2 ^ 64 ->
  get_trace f e v key = get_trace 66 e v key.
Proof. exact get_trace_rounds. Qed.
Print Assumptions C88_ends.

(** A dict with the seven keys "aa", "bb", ... "gg": three entries are looked at to find "aa" or
    to see that "ac" is not there, one to find "dd". *)
Definition seven : list op := OpBeginDict :: flat_map (fun c => [OpKey [c; c]; OpValue (EInt U8 c)]) [97;98;99;100;101;102;103] ++ [OpEndDict].
Definition in_seven (key : list Z) : outcome (Z * option (list Z)) :=
  r <- run_doc (ex_cfg true) [] seven ;;
  let m := mk_env true 4096 (snd (fst r)) None in
  d <- from_bytes m ;;
  match d with
  | Ok v => n <- dict_len m v ;; a <- get_trace 66 m v key ;; Ret (n, match fst a with Some _ => Some (snd a) | None => None end)
  | Err _ => Panic
  end.
Example C88_example : in_seven [97;97] = Ret (7, Some [3;1;0]) /\ in_seven [100;100] = Ret (7, Some [3]) /\
  in_seven [97;99] = Ret (7, None).
Proof. repeat split; vm_compute; reflexivity. Qed.

(** Vocabulary for C94: documents that read alike. *)
From Verif Require Import Prelude SharedKeys Decode Read ReadSpec Encodable Ser De.

(** A dict key is a text, or a number that the shared keys of the document know. *)
Definition key_is_text (e : env) (kv : val) : bool :=
  match value_type e kv with
  | Ret TyString => match to_str e kv with Ret _ => true | _ => false end
  | Ret TyShort => match key_text e (e_sk e) kv with Ret (Some _) => true | _ => false end
  | _ => false
  end.

(** The slots of a dict, two by two: a key and a value. *)
Definition entries_are (p q : val -> bool) : list val -> bool :=
  fix go (l : list val) : bool :=
    match l with
    | [] => true
    | k :: x :: l' => p k && q x && go l'
    | _ => false
    end.

(** All keys of all dicts in the value, at any depth, are texts.  (The iterator over a dict stops at
    the first key that is not, and shows keys of other types as empty texts.) *)
Fixpoint keys_are_texts (depth : nat) (e : env) (v : val) : bool :=
  match depth with
  | O => false
  | S d =>
      match value_type e v with
      | Ret TyArray => match arr_elems e v with Ret l => forallb (keys_are_texts d e) l | _ => false end
      | Ret TyDict => match arr_elems e v with Ret l => entries_are (key_is_text e) (keys_are_texts d e) l | _ => false end
      | Ret _ => true
      | _ => false
      end
  end.

(** The document is accepted, its root reads as [t], and all its keys are texts. *)
Definition doc_reads (e : env) (t : tree) : Prop :=
  exists r depth, from_bytes e = Ret (Ok r) /\ read_doc e r = Ret t /\ keys_are_texts depth e r = true.

(** Where the type expects an enum and the content has an array, the array is one whose meaning as
    an enum depends only on the content: it is not empty, does not start with a number, and has a
    second element if it starts with the name of a variant with content.  If that variant has named
    fields, then they are looked for in the dict that follows; this is allowed with [named] only.
    To the nesting bound [fuel]. *)
Fixpoint enums_fit (named : bool) (G : nat -> sty) (fuel : nat) (ty : sty) (t : tree) : bool :=
  match fuel with
  | O => true
  | S f =>
      let each := fix each (ts : list sty) (l : list tree) : bool :=
        match ts, l with
        | ty' :: ts', x :: l' => enums_fit named G f ty' x && each ts' l'
        | _, _ => true
        end in
      match ty, t with
      | YNamed n, _ => enums_fit named G f (G n) t
      | YOpt ty', _ => enums_fit named G f ty' t
      | YSeq ty', TArr l => forallb (enums_fit named G f ty') l
      | YMap _ ty', TDict l => forallb (fun kx => enums_fit named G f ty' (snd kx)) l
      | YStruct fs, TDict l =>
          forallb (fun kx => match lookup (fst kx) fs with Some ty' => enums_fit named G f ty' (snd kx) | None => true end) l
      | YNewtype ty', TArr l => each [ty'] l
      | YTuple ts, TArr l | YTupleStruct ts, TArr l => each ts l
      | YEnum vs, TArr [] => false
      | YEnum vs, TArr (t0 :: rest) =>
          match t0 with
          | TInt _ => false
          | TStr s | TData s =>
              match lookup s vs with
              | None | Some VUnit => true
              | Some (VNewtype ty') => match rest with x :: _ => enums_fit named G f ty' x | [] => false end
              | Some (VTuple ts) => match rest with TArr l :: _ => each ts l | _ :: _ => true | [] => false end
              | Some (VStruct fs) =>
                  named &&
                  match rest with
                  | TDict l :: _ =>
                      forallb (fun kx => match lookup (fst kx) fs with Some ty' => enums_fit named G f ty' (snd kx) | None => true end) l
                  | _ :: _ => true
                  | [] => false
                  end
              end
          | _ => true
          end
      | _, _ => true
      end
  end.

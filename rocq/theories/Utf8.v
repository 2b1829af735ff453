(** UTF-8 validity as decided by [core::str::from_utf8] (Rust standard library), used by
    src/value/mod.rs:325, and [str::chars] used by src/shared_keys.rs:67.  The table is the
    one of the Unicode standard (well-formed UTF-8 byte sequences). *)
From Verif Require Import Prelude.

Definition in_rng (lo hi b : Z) : bool := (lo <=? b) && (b <=? hi).
Definition is_cont (b : Z) : bool := in_rng 128 191 b.

(** Second byte of a 3-byte sequence led by [b0]. *)
Definition second3 (b0 b1 : Z) : bool :=
  if b0 =? 224 then in_rng 160 191 b1
  else if b0 =? 237 then in_rng 128 159 b1
  else is_cont b1.
(** Second byte of a 4-byte sequence led by [b0]. *)
Definition second4 (b0 b1 : Z) : bool :=
  if b0 =? 240 then in_rng 144 191 b1
  else if b0 =? 244 then in_rng 128 143 b1
  else is_cont b1.

Fixpoint utf8_valid (l : list Z) : bool :=
  match l with
  | [] => true
  | b0 :: r0 =>
      if in_rng 0 127 b0 then utf8_valid r0
      else
        match r0 with
        | [] => false
        | b1 :: r1 =>
            if in_rng 194 223 b0 then is_cont b1 && utf8_valid r1
            else
              match r1 with
              | [] => false
              | b2 :: r2 =>
                  if in_rng 224 239 b0 then second3 b0 b1 && is_cont b2 && utf8_valid r2
                  else
                    match r2 with
                    | [] => false
                    | b3 :: r3 =>
                        if in_rng 240 244 b0
                        then second4 b0 b1 && is_cont b2 && is_cont b3 && utf8_valid r3
                        else false
                    end
              end
        end
  end.

(** The code points of a valid UTF-8 string ([str::chars]); total, its value on invalid
    input is irrelevant. *)
Fixpoint utf8_chars (l : list Z) : list Z :=
  match l with
  | [] => []
  | b0 :: r0 =>
      if in_rng 0 127 b0 then b0 :: utf8_chars r0
      else
        match r0 with
        | [] => []
        | b1 :: r1 =>
            if in_rng 194 223 b0 then ((b0 - 192) * 64 + (b1 - 128)) :: utf8_chars r1
            else
              match r1 with
              | [] => []
              | b2 :: r2 =>
                  if in_rng 224 239 b0
                  then ((b0 - 224) * 4096 + (b1 - 128) * 64 + (b2 - 128)) :: utf8_chars r2
                  else
                    match r2 with
                    | [] => []
                    | b3 :: r3 =>
                        ((b0 - 240) * 262144 + (b1 - 128) * 4096 + (b2 - 128) * 64 + (b3 - 128))
                          :: utf8_chars r3
                    end
              end
        end
  end.

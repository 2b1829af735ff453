(** Text: sequences of Unicode scalar values, and their UTF-8 encoding (The Unicode Standard,
    table 3-6). *)
From Verif Require Import Prelude.

Definition scalar (c : Z) : Prop := 0 <= c <= 0xD7FF \/ 0xE000 <= c <= 0x10FFFF.
Definition encode_char (c : Z) : list Z :=
  if c <? 0x80 then [c]
  else if c <? 0x800 then [0xC0 + c / 64; 0x80 + c mod 64]
  else if c <? 0x10000 then [0xE0 + c / 4096; 0x80 + c / 64 mod 64; 0x80 + c mod 64]
  else [0xF0 + c / 262144; 0x80 + c / 4096 mod 64; 0x80 + c / 64 mod 64; 0x80 + c mod 64].
Definition encode_text (cs : list Z) : list Z := flat_map encode_char cs.
(** The bytes are the encoding of some text. *)
Definition is_text (bs : list Z) : Prop := exists cs, Forall scalar cs /\ bs = encode_text cs.

(** The characters a shared key may consist of: letters and digits, in ASCII and beyond ([ua],
    the Unicode tables), the underscore and the hyphen. *)
Definition key_char (ua : Z -> bool) (c : Z) : Prop :=
  48 <= c <= 57 \/ 65 <= c <= 90 \/ 97 <= c <= 122 \/ c = 95 \/ c = 45 \/ (128 <= c /\ ua c = true).

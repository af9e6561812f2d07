(** UTF-8 (RFC 3629) as the encoding of Unicode scalar values.  Definitions only. *)
From Verif Require Import Base.

Definition scalar (c : N) : Prop := c < 1114112 /\ ~ (55296 <= c <= 57343).
Definition utf8_char_bytes (c : N) : bytes :=
  if c <? 128 then [c]
  else if c <? 2048 then [192 + c / 64; 128 + c mod 64]
  else if c <? 65536 then [224 + c / 4096; 128 + (c / 64) mod 64; 128 + c mod 64]
  else [240 + c / 262144; 128 + (c / 4096) mod 64; 128 + (c / 64) mod 64; 128 + c mod 64].
Definition utf8 (l : bytes) : Prop := exists cs, Forall scalar cs /\ l = concat (map utf8_char_bytes cs).

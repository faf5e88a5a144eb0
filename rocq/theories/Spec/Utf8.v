(** UTF-8 (RFC 3629): a byte string is well formed when it is the encoding of Unicode scalar values. *)
From Verif Require Import Model.Prelude.

Definition scalar (c : Z) : Prop := 0 <= c <= 0xD7FF \/ 0xE000 <= c <= 0x10FFFF.
Definition encode_char (c : Z) : list Z :=
  if c <? 0x80 then [c]
  else if c <? 0x800 then [0xC0 + c / 64; 0x80 + c mod 64]
  else if c <? 0x10000 then [0xE0 + c / 4096; 0x80 + (c / 64) mod 64; 0x80 + c mod 64]
  else [0xF0 + c / 262144; 0x80 + (c / 4096) mod 64; 0x80 + (c / 64) mod 64; 0x80 + c mod 64].
Definition is_utf8 (l : list Z) : Prop :=
  exists cs, Forall scalar cs /\ l = concat (map encode_char cs).

(** UTF-8 as defined by Unicode: the concatenated encodings of scalar values. *)
From Verif Require Import Base.
Local Open Scope list_scope.
Local Open Scope Z_scope.

(** Code points without surrogates. *)
Definition scalar (c : Z) : Prop := 0 <= c < 55296 \/ 57344 <= c < 1114112.

Definition utf8_char (c : Z) : list Z :=
  if c <? 128 then [c]
  else if c <? 2048 then [192 + c / 64; 128 + c mod 64]
  else if c <? 65536 then [224 + c / 4096; 128 + (c / 64) mod 64; 128 + c mod 64]
  else [240 + c / 262144; 128 + (c / 4096) mod 64; 128 + (c / 64) mod 64; 128 + c mod 64].

Definition utf8_text (l : list Z) : Prop := exists cs, Forall scalar cs /\ l = concat (map utf8_char cs).

(** Property C90: what accesses to fields outside the buffer do. *)
From Verif Require Import Base BaseFacts Codec CodecSpec CodecFacts CodecBounds.

(** A write panics if its first byte is outside, or if it needs a ninth byte
    and the buffer has eight; it leaves the memory if the buffer ends within
    the word that is copied; otherwise it returns a buffer of the same length. *)
Theorem C90_write b e t v m off nb : bytes_ok m -> 0 <= off -> 1 <= nb <= 64 ->
  if (len m <=? off / 8) || ((off <? 8) && (64 <? off + nb) && (len m =? 8))
  then write_bytes b e t v m off nb = Panic
  else if len m <? off / 8 + Z.min 8 ((off mod 8 + nb + 7) / 8)
  then write_bytes b e t v m off nb = UB
  else exists m', write_bytes b e t v m off nb = Ret m' /\ bytes_ok m' /\ len m' = len m.
Proof. exact (write_ends b e t v m off nb). Qed.
Print Assumptions C90_write.

(** A read never panics. *)
Theorem C90_read b e t m off nb : bytes_ok m -> 0 <= off -> 1 <= nb <= width t ->
  if len m <? (if off mod 8 + nb <=? 64 then (off + nb + 7) / 8 else 2 * (off / 8) + 9)
  then read_bytes b e t m off nb = UB
  else exists v, read_bytes b e t m off nb = Ret v.
Proof. exact (read_ends b e t m off nb). Qed.
Print Assumptions C90_read.

(** Hence writes are not checked to end inside the buffer:
    of the writes of fields that start in the buffer and end outside, the only
    ones that panic are those of nine bytes at the start of a buffer of eight. *)
Theorem C90_unchecked b e t v m off nb : bytes_ok m -> 0 <= off -> 1 <= nb <= 64 ->
  off / 8 < len m -> 8 * len m < off + nb ->
  (write_bytes b e t v m off nb = Panic <-> off < 8 /\ 64 < off + nb /\ len m = 8).
Proof. exact (write_unchecked b e t v m off nb). Qed.
Print Assumptions C90_unchecked.

(** A field of nine bytes may end outside the buffer and still be written: the
    ninth byte goes to a fixed place near the start of the buffer. *)
Example C90_example :
  write_bytes Debug LE U32 7 (zeros 4) 32 5 = Panic /\
  write_bytes Release LE U32 7 (zeros 4) 30 5 = UB /\
  write_bytes Debug LE U32 7 (zeros 4) 27 5 = Ret [0; 0; 0; 56] /\
  write_bytes Release LE U64 (2 ^ 63) (zeros 8) 1 64 = Panic /\
  write_bytes Debug LE U64 (2 ^ 63) (zeros 9) 1 64 = Ret [0; 0; 0; 0; 0; 0; 0; 0; 1] /\
  write_bytes Debug BE U64 (2 ^ 63) (zeros 9) 15 64 =
    Ret [0; 0; 0; 0; 0; 0; 0; 0; 64] /\
  read_bytes Release BE I16 [255; 3] 4 12 = Ret 63 /\
  read_bytes Release BE I16 [255; 3] 5 12 = UB.
Proof. repeat split; vm_compute; reflexivity. Qed.

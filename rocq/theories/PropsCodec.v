(** Properties C01 - C09: the bit-field codec (read_bytes!, write_bytes!).
    The vocabulary ([bit_at], [field_unsigned], ...) is in CodecSpec.v. *)
From Verif Require Import Base Codec CodecSpec CodecFacts CodecNeg.

(** C01: unsigned and bool fields read as exactly their bits. *)
Theorem C01_read_unsigned b e t m off nb :
  is_signed t = false -> t <> PBool ->
  bytes_ok m -> field_inside m off nb -> layout_ok off nb -> 1 <= nb <= width t ->
  read_bytes b e t m off nb = Ret (field_unsigned m off nb).
Proof. exact (read_unsigned b e t m off nb). Qed.
Print Assumptions C01_read_unsigned.

Theorem C01_read_bool b e m off nb :
  bytes_ok m -> field_inside m off nb -> layout_ok off nb -> 1 <= nb <= 8 ->
  read_bytes b e PBool m off nb = Ret (if field_unsigned m off nb =? 0 then 0 else 1).
Proof. exact (read_bool b e m off nb). Qed.
Print Assumptions C01_read_bool.

(** [field_unsigned] is the number with these binary digits. *)
Theorem C01_field_unsigned_digits m off nb j : 0 <= nb -> 0 <= j ->
  Z.testbit (field_unsigned m off nb) j = (j <? nb) && bit_at m (off + j).
Proof. exact (field_unsigned_testbit m off nb j). Qed.
Print Assumptions C01_field_unsigned_digits.

(** A 64-bit field starting at bit 3 needs nine bytes. *)
Example C01_example :
  let m := [248; 255; 255; 255; 255; 255; 255; 255; 5] in
  field_inside m 3 64 /\ layout_ok 3 64 /\ bytes_ok m /\
  read_bytes Debug BE U64 m 3 64 = Ret (2 ^ 64 - 1 - 2 ^ 62).
Proof.
  unfold field_inside, layout_ok, bytes_ok, is_byte, len.
  split; [|split; [|split]]; [cbn; lia|lia| |vm_compute; reflexivity].
  repeat (constructor; [lia|]). constructor.
Qed.

(** C02: signed fields. *)
Theorem C02_read_signed b e t m off nb :
  is_signed t = true ->
  bytes_ok m -> field_inside m off nb -> layout_ok off nb -> 2 <= nb <= width t ->
  read_bytes b e t m off nb = Ret (field_signed m off nb).
Proof. exact (read_signed b e t m off nb). Qed.
Print Assumptions C02_read_signed.

Theorem C02_read_signed_one_bit b e t m off :
  is_signed t = true -> bytes_ok m -> field_inside m off 1 ->
  read_bytes b e t m off 1 = Ret (field_unsigned m off 1).
Proof. exact (read_signed_1 b e t m off). Qed.
Print Assumptions C02_read_signed_one_bit.

Example C02_example :
  read_bytes Debug LE I16 [0; 240; 1] 12 5 = Ret (-1) /\
  read_bytes Debug LE I16 [0; 224; 1] 12 5 = Ret (-2) /\
  read_bytes Debug LE I32 [0; 240; 0] 12 5 = Ret 15 /\
  read_bytes Debug LE I8 [16] 4 1 = Ret 1.
Proof. repeat split; vm_compute; reflexivity. Qed.

(** C03: write then read. *)
Theorem C03_write_read b e t v m off nb :
  bytes_ok m -> field_inside m off nb -> layout_ok off nb -> 1 <= nb <= width t ->
  in_range t nb v -> (is_signed t = true -> 2 <= nb) ->
  exists m', write_bytes b e t v m off nb = Ret m' /\
    read_bytes b e t m' off nb = Ret v.
Proof. exact (write_read b e t v m off nb). Qed.
Print Assumptions C03_write_read.

Example C03_example :
  obind (write_bytes Debug LE I32 (-77777) [1; 2; 3; 4; 5; 6] 13 21)
    (fun m => read_bytes Debug LE I32 m 13 21) = Ret (-77777) /\
  in_range I32 21 (-77777).
Proof. split; [vm_compute; reflexivity|simpl; lia]. Qed.

(** C04: frame of a write. *)
Theorem C04_write_frame b e t v m off nb :
  bytes_ok m -> field_inside m off nb -> layout_ok off nb -> 1 <= nb <= 64 ->
  in_range t nb v \/ is_signed t = true ->
  exists m', write_bytes b e t v m off nb = Ret m' /\ bytes_ok m' /\ len m' = len m /\
    (forall j, 0 <= j < nb -> bit_at m' (off + j) = Z.testbit v j) /\
    (forall i, 0 <= i -> i < off \/ off + nb <= i -> bit_at m' i = bit_at m i).
Proof. exact (write_frame b e t v m off nb). Qed.
Print Assumptions C04_write_frame.

Example C04_example :
  write_bytes Release BE U16 5 [255; 255; 255] 6 5 = Ret [127; 249; 255] /\
  write_bytes Release LE I8 (-9) [0; 0] 3 2 = Ret [24; 0].
Proof. split; vm_compute; reflexivity. Qed.

(** C05: host byte order. *)
Theorem C05_read_host b t m off nb : bytes_ok m ->
  read_bytes b LE t m off nb = read_bytes b BE t m off nb.
Proof. exact (read_bytes_host b t m off nb). Qed.
Print Assumptions C05_read_host.

Theorem C05_write_host b t v m off nb : bytes_ok m ->
  write_bytes b LE t v m off nb = write_bytes b BE t v m off nb.
Proof. exact (write_bytes_host b t v m off nb). Qed.
Print Assumptions C05_write_host.

(** The two hosts do hold different bytes in the local variable. *)
Example C05_example :
  load_u64 LE [1; 2; 3] 0 3 = Ret 197121 /\
  load_u64 BE [1; 2; 3] 0 3 = Ret 72623842526232576 /\
  read_bytes Debug BE U32 [1; 2; 3] 0 24 = Ret 197121.
Proof. repeat split; vm_compute; reflexivity. Qed.

(** C06: locality. *)
Theorem C06_read_local b e t m m' off nb :
  bytes_ok m -> bytes_ok m' -> field_inside m off nb -> field_inside m' off nb ->
  layout_ok off nb -> 1 <= nb <= width t ->
  (forall i, off <= i < off + nb -> bit_at m i = bit_at m' i) ->
  exists v, read_bytes b e t m off nb = Ret v /\ read_bytes b e t m' off nb = Ret v.
Proof. exact (read_bytes_local b e t m m' off nb). Qed.
Print Assumptions C06_read_local.

Theorem C06_write_local b e t v m off nb :
  bytes_ok m -> field_inside m off nb -> layout_ok off nb -> 1 <= nb <= 64 ->
  exists m', write_bytes b e t v m off nb = Ret m' /\ len m' = len m /\
    forall k, 0 <= k -> 8 * k + 8 <= off \/ off + nb <= 8 * k ->
      nth (Z.to_nat k) m' 0 = nth (Z.to_nat k) m 0.
Proof. exact (write_bytes_local b e t v m off nb). Qed.
Print Assumptions C06_write_local.

Example C06_example :
  (* the value 65535 is far out of range for 3 bits, the neighbour bytes stay *)
  write_bytes Debug LE U16 65535 [7; 0; 7] 8 3 = Ret [7; 255; 7].
Proof. vm_compute; reflexivity. Qed.

(** C07: the round trip holds on the layouts of [layout_ok] ... *)
Theorem C07_any_offset_partial b e t v m off nb :
  bytes_ok m -> field_inside m off nb -> layout_ok off nb -> 1 <= nb <= width t ->
  in_range t nb v -> (is_signed t = true -> 2 <= nb) ->
  exists m', write_bytes b e t v m off nb = Ret m' /\
    read_bytes b e t m' off nb = Ret v.
Proof. exact (write_read b e t v m off nb). Qed.
Print Assumptions C07_any_offset_partial.

(** ... and fails on every other layout, whatever the size of the buffer. *)
Theorem C07_any_offset_refuted t off nb L :
  0 <= off -> 1 <= nb <= width t -> ~ layout_ok off nb -> off + nb <= 8 * L ->
  exists v, in_range t nb v /\
    forall b e, exists m', write_bytes b e t v (zeros L) off nb = Ret m' /\
      read_bytes b e t m' off nb <> Ret v.
Proof. exact (roundtrip_fails t off nb L). Qed.
Print Assumptions C07_any_offset_refuted.

(** On a buffer that ends with the field, the read is out of bounds. *)
Theorem C07_read_out_of_bounds_refuted b e t m off nb :
  bytes_ok m -> 0 <= off -> 1 <= nb <= 64 -> t <> PBool -> ~ layout_ok off nb ->
  len m = (off + nb + 7) / 8 ->
  read_bytes b e t m off nb = UB.
Proof. exact (read_outside_tight b e t m off nb). Qed.
Print Assumptions C07_read_out_of_bounds_refuted.

Example C07_example :
  ~ layout_ok 9 64 /\
  write_bytes Debug LE U64 (2 ^ 64 - 1) (zeros 20) 9 64
    = Ret [0; 254; 255; 255; 255; 255; 255; 255; 255; 0; 0; 0; 0; 0; 0; 0; 0; 0; 0; 0] /\
  read_bytes Debug LE U64 (zeros 10) 9 64 = UB.
Proof.
  split; [unfold layout_ok; lia|]. split; vm_compute; reflexivity.
Qed.

(** C08: exact effect of a write with any value. *)
Theorem C08_write_any_value_partial b e t v m off nb :
  bytes_ok m -> field_inside m off nb -> layout_ok off nb -> 1 <= nb <= 64 ->
  exists m', write_bytes b e t v m off nb = Ret m' /\
    bytes_ok m' /\ len m' = len m /\
    forall i, 0 <= i -> bit_at m' i =
      if (off <=? i) && (i <? off + nb) then Z.testbit v (i - off)
      else if (off + nb <=? i) && (i <? 8 * ((off + nb + 7) / 8))
      then bit_at m i || (negb (is_signed t) && (i - off <? 64) && Z.testbit v (i - off))
      else bit_at m i.
Proof. exact (write_bits b e t v m off nb). Qed.
Print Assumptions C08_write_any_value_partial.

(** An out-of-range value of an unsigned field changes its neighbour. *)
Theorem C08_neighbour_refuted :
  exists t v m off nb m', is_value t v /\ bytes_ok m /\ field_inside m off nb /\
    layout_ok off nb /\ 1 <= nb <= width t /\
    write_bytes Debug LE t v m off nb = Ret m' /\
    exists i, off + nb <= i < 8 * len m /\ bit_at m' i <> bit_at m i.
Proof.
  exists U32, 16, [0; 0; 0; 0], 0, 4, [16; 0; 0; 0].
  split; [simpl; lia|]. split; [repeat (constructor; [unfold is_byte; lia|]); constructor|].
  split; [unfold field_inside, len; simpl; lia|]. split; [left; lia|].
  split; [simpl; lia|]. split; [vm_compute; reflexivity|].
  exists 4. split; [unfold len; simpl; lia|]. vm_compute. discriminate.
Qed.
Print Assumptions C08_neighbour_refuted.

(** C09: truncation to the type. *)
Theorem C09_read_truncates b e t m off nb :
  is_signed t = false -> t <> PBool ->
  bytes_ok m -> field_inside m off nb -> layout_ok off nb -> 1 <= nb <= 64 ->
  read_bytes b e t m off nb = Ret (field_unsigned m off nb mod 2 ^ width t).
Proof. exact (read_unsigned_mod b e t m off nb). Qed.
Print Assumptions C09_read_truncates.

Example C09_example :
  read_bytes Debug LE U8 [52; 18] 0 16 = Ret 52 /\ field_unsigned [52; 18] 0 16 = 4660.
Proof. split; vm_compute; reflexivity. Qed.

(** Properties C10 - C12, C51, C52: structs, fill_from, StructBuf, enums.
    Vocabulary: [wf_struct] (fields inside, disjoint, supported layout),
    [sets_ok] (in-range values), [last_set], in StructsSpec.v. *)
From Verif Require Import Base BaseFacts Codec CodecSpec Structs StructsSpec StructsFacts.

(** C10: fields are independent variables. *)
Theorem C10_fields_independent b e s ops m :
  wf_struct s -> bytes_ok m -> s_size s <= len m -> sets_ok s ops ->
  exists m', run_sets b e s ops m = Ret m' /\ len m' = len m /\
    skipn (Z.to_nat (s_size s)) m' = skipn (Z.to_nat (s_size s)) m /\
    forall i, (i < length (s_fields s))%nat ->
      get_field b e (field_nth s i) m' =
      match last_set i ops with
      | Some v => Ret v
      | None => get_field b e (field_nth s i) m
      end.
Proof. exact (sets_then_get b e s ops m). Qed.
Print Assumptions C10_fields_independent.

(** ... and every getter on enough bytes returns (no panic, no stray access). *)
Theorem C10_getters_total b e s i m :
  wf_struct s -> bytes_ok m -> s_size s <= len m -> (i < length (s_fields s))%nat ->
  get_field b e (field_nth s i) m =
  Ret (field_value (f_prim (field_nth s i)) m (f_off (field_nth s i)) (f_bits (field_nth s i))).
Proof. exact (fun w h1 h2 hi => get_field_ok b e s (field_nth s i) m h1 (wf_nth s i w hi) h2). Qed.
Print Assumptions C10_getters_total.

(** The index type: what is set is what is read, also through the setters of the
    struct. *)
Theorem C10_index b e size bits v m :
  wf_struct (index_struct size bits) -> bytes_ok m -> size <= len m -> 0 <= v < 2 ^ bits ->
  run_sets b e (index_struct size bits) [(0%nat, v)] m = set_index b e size bits v m /\
  exists m', set_index b e size bits v m = Ret m' /\ get_index b e bits m' = Ret v /\ len m' = len m /\
    skipn (Z.to_nat size) m' = skipn (Z.to_nat size) m.
Proof. exact (set_then_get_index b e size bits v m). Qed.
Print Assumptions C10_index.

(** A struct with unaligned neighbours, as in the tests of the repository. *)
Definition ex_struct := mkStruct 5
  [mkField U8 0 3; mkField I32 3 14; mkField PBool 17 1; mkField U32 18 22].
Lemma ex_struct_wf : wf_struct ex_struct.
Proof. apply wf_struct_dec. reflexivity. Qed.

Example C10_example :
  let ops := [(1%nat, -5000); (3%nat, 4194303); (0%nat, 5); (2%nat, 1); (1%nat, 8191)] in
  let m := [255; 255; 255; 255; 255; 170] in
  sets_ok ex_struct ops /\
  obind (run_sets Debug BE ex_struct ops m) (get_all Debug BE ex_struct) = Ret [5; 8191; 1; 4194303] /\
  wf_struct (index_struct 3 20) /\
  set_index Release LE 3 20 1048575 [0; 0; 240; 7] = Ret [255; 255; 255; 7] /\ get_index Release LE 20 [255; 255; 255; 7] = Ret 1048575.
Proof.
  split; [|split; [vm_compute; reflexivity|split; [apply wf_struct_dec; reflexivity|split; vm_compute; reflexivity]]].
  repeat constructor; simpl; lia.
Qed.

(** C11: fill_from and equality. *)
Theorem C11_fill_from b e s m other :
  wf_struct s -> bytes_ok m -> bytes_ok other -> s_size s <= len m -> s_size s <= len other ->
  exists m', fill_from b e s m other = Ret m' /\ len m' = len m /\
    skipn (Z.to_nat (s_size s)) m' = skipn (Z.to_nat (s_size s)) m /\
    struct_eq b e s m' other = Ret true /\
    forall i, (i < length (s_fields s))%nat ->
      get_field b e (field_nth s i) m' = get_field b e (field_nth s i) other.
Proof. exact (fill_from_eq b e s m other). Qed.
Print Assumptions C11_fill_from.

Theorem C11_eq_exact b e s m1 m2 :
  wf_struct s -> bytes_ok m1 -> bytes_ok m2 -> s_size s <= len m1 -> s_size s <= len m2 ->
  exists r, struct_eq b e s m1 m2 = Ret r /\
    (r = true <-> forall i, (i < length (s_fields s))%nat ->
       get_field b e (field_nth s i) m1 = get_field b e (field_nth s i) m2).
Proof. exact (struct_eq_iff b e s m1 m2). Qed.
Print Assumptions C11_eq_exact.

Example C11_example :
  fill_from Debug LE ex_struct [1; 2; 3; 4; 5; 99] [129; 66; 35; 20; 250; 7]
    = Ret [129; 66; 35; 20; 250; 99] /\
  struct_eq Debug LE ex_struct [1; 2; 3; 4; 5] [1; 2; 3; 4; 6] = Ret false.
Proof. split; vm_compute; reflexivity. Qed.

(** C12: StructBuf. *)
Theorem C12_structbuf b e s ops : wf_struct s -> sets_ok s ops ->
  exists data bytes, run_sets b e s ops (sb_get (sb_new s)) = Ret data /\
    get_all b e s (sb_get data) = Ret (apply_sets ops (zero_record s)) /\
    sb_as_bytes s data = Ret bytes /\
    len data = s_size s + 8 /\ skipn (Z.to_nat (s_size s)) data = zeros 8 /\
    len (sl_bytes bytes) = s_size s /\
    get_all b e s (sl_bytes bytes) = Ret (apply_sets ops (zero_record s)).
Proof. exact (sb_roundtrip b e s ops). Qed.
Print Assumptions C12_structbuf.

Theorem C12_new_is_zero s : wf_struct s ->
  sb_new s = repeat 0 (Z.to_nat (s_size s + 8)) /\
  forall b e i, (i < length (s_fields s))%nat -> get_field b e (field_nth s i) (sb_new s) = Ret 0.
Proof. exact (sb_new_zero s). Qed.
Print Assumptions C12_new_is_zero.

Example C12_example :
  obind (run_sets Release LE ex_struct [(1%nat, -1); (2%nat, 1)] (sb_new ex_struct))
    (fun d => omap sl_bytes (sb_as_bytes ex_struct d)) = Ret [248; 255; 3; 0; 0].
Proof. vm_compute; reflexivity. Qed.

(** C51: one-bit signed fields do not round trip: the only negative value of
    the one-bit two's-complement range is -1 and it reads back as 1 ... *)
Theorem C51_one_bit_signed_refuted :
  forall b e t m off, is_signed t = true -> bytes_ok m -> field_inside m off 1 ->
  in_range t 1 (-1) /\
  exists m', write_bytes b e t (-1) m off 1 = Ret m' /\ read_bytes b e t m' off 1 = Ret 1.
Proof. exact one_bit_signed. Qed.
Print Assumptions C51_one_bit_signed_refuted.

(** ... while 0 does, and so does every in-range value of wider fields. *)
Theorem C51_one_bit_signed_partial :
  forall b e t m off nb v, is_signed t = true -> bytes_ok m -> field_inside m off nb ->
  layout_ok off nb -> 1 <= nb <= width t -> in_range t nb v -> (nb = 1 -> v = 0) ->
  exists m', write_bytes b e t v m off nb = Ret m' /\ read_bytes b e t m' off nb = Ret v.
Proof. exact signed_roundtrip. Qed.
Print Assumptions C51_one_bit_signed_partial.

(** C52: reading enums. *)
Theorem C52_enum_from_bytes_refuted :
  exists s codes m, wf_struct s /\ bytes_ok m /\ len m = s_size s /\ In 0 codes /\
    forall b e, get_enum b e codes (field_nth s 0) m = UB.
Proof.
  (* archive.rs:760-775 with u8, X = 0, Y = 1 in two bits; the byte 2 *)
  exists (mkStruct 1 [mkField U8 0 2]), [0; 1], [2].
  split; [|split; [|split; [reflexivity|split; [now left|]]]].
  - apply wf_struct_dec. reflexivity.
  - repeat constructor; unfold is_byte; lia.
  - intros [] []; vm_compute; reflexivity.
Qed.
Print Assumptions C52_enum_from_bytes_refuted.

(** Setting an enumerator and reading it back is fine; and in general the
    getter is undefined exactly on undeclared discriminants. *)
Theorem C52_enum_set_get_partial b e s codes ops m i :
  wf_struct s -> bytes_ok m -> s_size s <= len m ->
  sets_ok s ops -> (i < length (s_fields s))%nat ->
  forall v, last_set i ops = Some v -> In v codes ->
  exists m', run_sets b e s ops m = Ret m' /\ get_enum b e codes (field_nth s i) m' = Ret v.
Proof. exact (enum_set_get b e s codes ops m i). Qed.
Print Assumptions C52_enum_set_get_partial.

Theorem C52_enum_exact_partial b e s codes m i :
  wf_struct s -> bytes_ok m -> s_size s <= len m -> (i < length (s_fields s))%nat ->
  let v := field_value (f_prim (field_nth s i)) m (f_off (field_nth s i)) (f_bits (field_nth s i)) in
  get_enum b e codes (field_nth s i) m = if in_dec Z.eq_dec v codes then Ret v else UB.
Proof. exact (enum_get_value b e s codes m i). Qed.
Print Assumptions C52_enum_exact_partial.

(** A fresh struct whose enum has no discriminant 0 is already bad. *)
Example C52_example :
  let s := mkStruct 1 [mkField I16 0 2] in
  get_enum Debug LE [1; -1] (field_nth s 0) (sb_new s) = UB /\
  obind (run_sets Debug LE s [(0%nat, -1)] (sb_new s)) (get_enum Debug LE [1; -1] (field_nth s 0))
    = Ret (-1).
Proof. split; vm_compute; reflexivity. Qed.

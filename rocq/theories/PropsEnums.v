(** Property C83: structs with enum fields, and equality of items. *)
From Verif Require Import Base Codec CodecSpec Structs StructsSpec StructsFacts Enums EnumFacts.

(** An enum with the discriminants 0, 1, -1 in three bits, beside a five-bit
    number and a second enum. *)
Definition en_struct : edesc :=
  mkEnums 2 [(mkField I16 0 3, Some (true, [0; 1; -1])); (mkField U8 3 5, None);
             (mkField U32 8 2, Some (false, [0; 2]))].

Lemma en_wf : wf_struct (plain en_struct).
Proof. apply wf_struct_dec. reflexivity. Qed.

(** Reading every field: the record, if every enum field holds a declared
    discriminant; undefined behaviour otherwise. *)
Theorem C83_read b e s m : wf_struct (plain s) -> bytes_ok m -> e_size s <= len m ->
  (Forall (fun f => declared f m) (e_fields s) -> get_enums b e s m = Ret (decode (plain s) m)) /\
  (Exists (fun f => ~ declared f m) (e_fields s) -> get_enums b e s m = UB).
Proof. exact (get_enums_exact b e s m). Qed.
Print Assumptions C83_read.

(** A setter changes its own field only, for every enumerator that fits. *)
Theorem C83_set_partial b e s i v m : wf_struct (plain s) -> bytes_ok m -> e_size s <= len m ->
  (i < length (e_fields s))%nat ->
  let f := nth i (e_fields s) (default_field, None) in
  sign_ok f -> may_set f v -> in_range (f_prim (fst f)) (f_bits (fst f)) v ->
  exists m', set_efield b e s f v m = Ret m' /\ len m' = len m /\
    decode (plain s) m' = upd i v (decode (plain s) m) /\
    skipn (Z.to_nat (e_size s)) m' = skipn (Z.to_nat (e_size s)) m.
Proof. exact (set_enums_decode b e s i v m). Qed.
Print Assumptions C83_set_partial.

(** Without [sign_ok] it does not: if [impl Int] calls an enum with a negative
    enumerator unsigned, storing that enumerator sets all bits which follow the
    field in its last byte. *)
Theorem C83_wrong_sign b e s f codes v m : wf_field (e_size s) (fst f) -> bytes_ok m ->
  e_size s <= len m -> snd f = Some (false, codes) -> is_signed (f_prim (fst f)) = true ->
  in_range (f_prim (fst f)) (f_bits (fst f)) v -> v < 0 ->
  exists m', set_efield b e s f v m = Ret m' /\ len m' = len m /\
    forall i, 0 <= i ->
      bit_at m' i =
        if (f_off (fst f) <=? i) && (i <? f_off (fst f) + f_bits (fst f))
        then Z.testbit v (i - f_off (fst f))
        else if (f_off (fst f) + f_bits (fst f) <=? i) &&
                (i <? 8 * ((f_off (fst f) + f_bits (fst f) + 7) / 8)) &&
                (i - f_off (fst f) <? 64)
        then true else bit_at m i.
Proof. exact (wrong_sign b e s f codes v m). Qed.
Print Assumptions C83_wrong_sign.

Definition bad_struct : edesc :=
  mkEnums 1 [(mkField I16 0 3, Some (false, [0; -1])); (mkField U8 3 5, None)].

Theorem C83_wrong_sign_refuted : forall b e,
  wf_struct (plain bad_struct) /\
  obind (set_efield b e bad_struct (nth 0 (e_fields bad_struct) (default_field, None)) (-1) [0])
    (get_enums b e bad_struct) = Ret [-1; 31].
Proof.
  intros b e. split; [apply wf_struct_dec; reflexivity|].
  destruct b, e; vm_compute; reflexivity.
Qed.
Print Assumptions C83_wrong_sign_refuted.

(** Equality. *)
Theorem C83_eq_declared b e s m1 m2 : wf_struct (plain s) -> bytes_ok m1 -> bytes_ok m2 ->
  e_size s <= len m1 -> e_size s <= len m2 ->
  Forall (fun f => declared f m1) (e_fields s) -> Forall (fun f => declared f m2) (e_fields s) ->
  exists r, eq_enums b e s m1 m2 = Ret r /\
    (r = true <-> decode (plain s) m1 = decode (plain s) m2).
Proof. exact (eq_enums_declared b e s m1 m2). Qed.
Print Assumptions C83_eq_declared.

(** The three results, exactly: [l] are the fields compared before the
    decision.  An undeclared discriminant behind the first difference does no
    harm. *)
Theorem C83_eq_exact b e s m1 m2 : wf_struct (plain s) -> bytes_ok m1 -> bytes_ok m2 ->
  e_size s <= len m1 -> e_size s <= len m2 ->
  (eq_enums b e s m1 m2 = Ret true <-> agree (e_fields s) m1 m2) /\
  (eq_enums b e s m1 m2 = Ret false <->
     exists l f r, e_fields s = l ++ f :: r /\ agree l m1 m2 /\ declared f m1 /\ declared f m2 /\
       code_of f m1 <> code_of f m2) /\
  (eq_enums b e s m1 m2 = UB <->
     exists l f r, e_fields s = l ++ f :: r /\ agree l m1 m2 /\ ~ (declared f m1 /\ declared f m2)) /\
  eq_enums b e s m1 m2 <> Panic.
Proof.
  intros W B1 B2 L1 L2. split; [|split; [|split]].
  - exact (eq_enums_true b e s m1 m2 W B1 B2 L1 L2).
  - exact (eq_enums_false b e s m1 m2 W B1 B2 L1 L2).
  - exact (eq_enums_ub b e s m1 m2 W B1 B2 L1 L2).
  - exact (eq_enums_panic b e s m1 m2 W B1 B2 L1 L2).
Qed.
Print Assumptions C83_eq_exact.

(** Comparing a struct with itself can be undefined. *)
Theorem C83_eq_refuted : forall b e,
  eq_enums b e en_struct [2; 0] [2; 0] = UB /\
  eq_enums b e en_struct [1; 1] [0; 1] = Ret false /\
  eq_enums b e en_struct [1; 1] [1; 1] = UB.
Proof. intros b e. destruct b, e; vm_compute; auto. Qed.
Print Assumptions C83_eq_refuted.

(** fill_from copies the record, or is undefined when the source holds an
    undeclared discriminant; what the target held does not matter. *)
Theorem C83_fill_partial b e s m other : wf_struct (plain s) ->
  bytes_ok m -> bytes_ok other -> e_size s <= len m -> e_size s <= len other ->
  Forall sign_ok (e_fields s) ->
  (Forall (fun f => declared f other) (e_fields s) ->
     exists m', fill_enums b e s m other = Ret m' /\ bytes_ok m' /\ len m' = len m /\
       skipn (Z.to_nat (e_size s)) m' = skipn (Z.to_nat (e_size s)) m /\
       decode (plain s) m' = decode (plain s) other) /\
  (Exists (fun f => ~ declared f other) (e_fields s) -> fill_enums b e s m other = UB).
Proof. exact (fill_enums_exact b e s m other). Qed.
Print Assumptions C83_fill_partial.

Theorem C83_fill_refuted : forall b e,
  fill_enums b e en_struct [0; 0] [2; 0] = UB /\
  omap (decode (plain bad_struct)) (fill_enums b e bad_struct [0] [7]) = Ret [-1; 0] /\
  decode (plain (mkEnums 1 (rev (e_fields bad_struct)))) [7] = [0; -1] /\
  omap (decode (plain (mkEnums 1 (rev (e_fields bad_struct)))))
    (fill_enums b e (mkEnums 1 (rev (e_fields bad_struct))) [0] [7]) = Ret [31; -1].
Proof. intros b e. destruct b, e; vm_compute; auto. Qed.
Print Assumptions C83_fill_refuted.

(** Items of a variadic struct are equal exactly when they are the same
    alternative and all their fields are equal. *)
Theorem C83_items b e ts x y : item_good ts x -> item_good ts y ->
  exists r, eq_item b e ts x y = Ret r /\ (r = true <-> item_fields ts x = item_fields ts y).
Proof. exact (eq_item_exact b e ts x y). Qed.
Print Assumptions C83_items.

Example C83_example : forall b e,
  get_enums b e en_struct [47; 130] = Ret [-1; 5; 2] /\
  obind (set_efield b e en_struct (nth 0 (e_fields en_struct) (default_field, None)) 1 [47; 130])
    (get_enums b e en_struct) = Ret [1; 5; 2] /\
  fill_enums b e en_struct [255; 255] [47; 130] = Ret [47; 254] /\
  eq_enums b e en_struct [47; 254] [47; 130] = Ret true /\
  eq_item b e [en_struct; en_struct] (0%nat, [47; 130; 9]) (0%nat, [47; 254; 7]) = Ret true /\
  eq_item b e [en_struct; en_struct] (0%nat, [47; 130]) (1%nat, [47; 130]) = Ret false /\
  Forall sign_ok (e_fields en_struct) /\ item_good [en_struct; en_struct] (1%nat, [47; 130; 9]).
Proof.
  intros b e. do 6 (split; [destruct b, e; vm_compute; reflexivity|]). split.
  - apply Forall_cons; [now left|]. apply Forall_cons; [exact I|].
    apply Forall_cons; [right; repeat constructor; lia|]. constructor.
  - exists en_struct. split; [reflexivity|]. split; [exact en_wf|].
    split; [repeat constructor; simpl; lia|]. split; [vm_compute; discriminate|].
    apply Forall_cons; [vm_compute; auto|]. apply Forall_cons; [exact I|].
    apply Forall_cons; [vm_compute; auto|]. constructor.
Qed.

(** Layouts the codec does not support: nine-byte fields behind the first byte. *)
From Verif Require Import Base BaseFacts Codec CodecSpec CodecFacts.

Lemma not_layout_ok off nb : 0 <= off -> nb <= 64 -> ~ layout_ok off nb ->
  8 <= off /\ 64 < off mod 8 + nb.
Proof. unfold layout_ok. lia. Qed.

(** On a buffer that ends with the field the read leaves the buffer. *)
Theorem read_outside_tight b e t m off nb :
  bytes_ok m -> 0 <= off -> 1 <= nb <= 64 -> t <> PBool -> ~ layout_ok off nb ->
  len m = (off + nb + 7) / 8 ->
  read_bytes b e t m off nb = UB.
Proof.
  intros Hm Ho Hnb Ht HL Hlen. apply not_layout_ok in HL; try lia.
  replace (read_bytes b e t m off nb) with (read_bytes_int b e t m off nb)
    by (destruct t; try reflexivity; congruence).
  unfold read_bytes_int. replace (nb =? 1) with false by lia.
  destruct (num_bytes_window off nb) as (Hn & _ & Hw); try lia.
  destruct Hw as [Hn8 Hsp]; try lia. rewrite Hsp, Hn8.
  destruct (load_u64_ok e m (off / 8) 8) as (r & Hr & _); try lia; auto.
  rewrite Hr. simpl obind. unfold mem_get.
  replace ((0 <=? off / 8 + (off / 8 + 8)) && _) with false by lia. reflexivity.
Qed.

(** For every unsupported layout and every buffer size the all-ones value does
    not survive a round trip. *)
Theorem roundtrip_fails t off nb L :
  0 <= off -> 1 <= nb <= width t -> ~ layout_ok off nb -> off + nb <= 8 * L ->
  exists v, in_range t nb v /\
    forall b e, exists m', write_bytes b e t v (zeros L) off nb = Ret m' /\
      read_bytes b e t m' off nb <> Ret v.
Proof.
  intros Ho Hnb HL0 Hlen. pose proof (width_cases t) as Hwc.
  apply not_layout_ok in HL0; try lia. destruct HL0 as [Ho8 Hsp0].
  exists (if is_signed t then -1 else 2 ^ nb - 1).
  set (v := if is_signed t then -1 else 2 ^ nb - 1).
  assert (Hp : 2 ^ nb = 2 * 2 ^ (nb - 1))
    by (rewrite <- Z.pow_succ_r by lia; f_equal; lia).
  assert (Hp0 : 0 < 2 ^ (nb - 1)) by (apply Z.pow_pos_nonneg; lia).
  assert (Htb : t = U64 \/ t = I64) by (destruct t; simpl in *; auto; lia).
  split.
  { unfold v. destruct Htb; subst t; simpl; lia. }
  intros b e.
  assert (HLn : 0 <= L) by lia.
  assert (Hzl : len (zeros L) = L) by now apply len_zeros.
  assert (Hzo : bytes_ok (zeros L)) by apply bytes_ok_zeros.
  destruct (num_bytes_window off nb) as (Hn & _ & Hw); try lia.
  destruct Hw as [Hn8 Hsp]; try lia.
  unfold write_bytes. replace (match b with Debug => 64 <? nb | Release => false end) with false
    by (destruct b; lia).
  rewrite Hzl. replace (negb (off / 8 <? L)) with false by lia.
  rewrite Hn8 in *. rewrite Hsp.
  destruct (load_u64_ok e (zeros L) (off / 8) 8) as (r & Hr & _); try lia; auto.
  rewrite Hr. simpl obind.
  match goal with |- context [store_u64 e ?m _ (to_le e ?x) 8] =>
    destruct (store_u64_ok e m (off / 8) x 8) as (m1 & Hm1 & Hok1 & Hl1 & Hb1); auto; try lia end.
  rewrite Hm1. simpl obind. rewrite Hl1, Hzl.
  replace (negb (8 <? L)) with false by lia.
  rewrite mem_get_ok by lia. simpl obind.
  match goal with |- context [mem_write m1 8 [?x]] => set (nw := x) end.
  rewrite mem_write_ok by (change (len [nw]) with 1; lia).
  eexists; split; [reflexivity|].
  set (m' := _ ++ _).
  assert (Hl' : len m' = L).
  { unfold m'. rewrite len_splice; [lia|lia|change (len [nw]) with 1; lia]. }
  assert (Hnw : is_byte nw).
  { unfold nw. split.
    - apply Z.lor_nonneg. split.
      + apply Z.land_nonneg. left. apply bytes_ok_nth; auto.
      + apply Z.mod_pos_bound; lia.
    - change 256 with (2 ^ 8). apply testbit_range; try lia.
      + apply Z.lor_nonneg. split.
        * apply Z.land_nonneg. left. apply bytes_ok_nth; auto.
        * apply Z.mod_pos_bound; lia.
      + intros j Hj. rewrite Z.lor_spec, Z.land_spec, !u8_testbit by lia.
        replace (j <? 8) with false by lia. now rewrite andb_false_r. }
  assert (Hok' : bytes_ok m').
  { unfold m'. apply bytes_ok_splice; auto. constructor; auto. }
  assert (H9 : off / 8 + (off / 8 + 8) < L ->
     nth (Z.to_nat (off / 8 + (off / 8 + 8))) m' 0 = 0).
  { intros Hin. unfold m'. rewrite nth_splice; [|lia|change (len [nw]) with 1; lia|lia].
    change (len [nw]) with 1.
    replace (_ && _) with false by lia.
    apply byte_ext; [now apply bytes_ok_nth|unfold is_byte; lia|].
    intros j Hj. rewrite <- bit_at_div by lia. rewrite Hb1 by lia.
    replace (_ && _) with false by lia.
    rewrite bit_at_zeros. now rewrite Z.testbit_0_l. }
  replace (read_bytes b e t m' off nb) with (read_bytes_int b e t m' off nb)
    by (destruct Htb; subst t; reflexivity).
  unfold read_bytes_int. replace (nb =? 1) with false by lia. rewrite Hn8, Hsp.
  destruct (load_u64_ok e m' (off / 8) 8) as (r' & Hr' & Hf'); try lia; auto.
  rewrite Hr'. simpl obind. rewrite Hf'. unfold mem_get. rewrite Hl'.
  destruct ((0 <=? off / 8 + (off / 8 + 8)) && (off / 8 + (off / 8 + 8) <? L)) eqn:Ein;
    [|discriminate].
  rewrite H9 by lia. simpl obind. rewrite Z.shiftl_0_l. change (u64 0) with 0.
  rewrite Z.lor_0_r. set (x := Z.shiftr _ _).
  assert (Hx : forall j, 0 <= j -> Z.testbit x j =
     (j + off mod 8 <? 64) && bit_at m' (8 * (off / 8) + (j + off mod 8))).
  { intros j Hj. unfold x. rewrite Z.shiftr_spec by lia.
    rewrite loaded_testbit by (auto; lia). reflexivity. }
  assert (Hx0 : 0 <= x < 2 ^ 64).
  { assert (0 <= x).
    { unfold x. apply Z.shiftr_nonneg. unfold loaded. apply le_val_range.
      apply bytes_ok_app. split; auto using bytes_ok_zeros, bytes_ok_firstn, bytes_ok_skipn. }
    split; auto. apply testbit_range; try lia. intros j Hj. rewrite Hx by lia.
    now replace (_ <? _) with false by lia. }
  assert (Hlow : 0 <= masked x nb < 2 ^ (nb - 1)).
  { pose proof (masked_range x nb ltac:(lia) Hx0). split; [lia|].
    apply testbit_range; try lia. intros j Hj. rewrite masked_testbit by lia.
    destruct (Z.ltb_spec j nb); auto. simpl. rewrite Hx by lia.
    now replace (_ <? _) with false by lia. }
  unfold v. destruct Htb; subst t; simpl is_signed; simpl in Hnb.
  - rewrite extend_sign_unsigned by reflexivity. change (width U64) with 64.
    rewrite Z.mod_small by (pose proof (masked_range x nb ltac:(lia) Hx0); lia).
    injection. lia.
  - rewrite extend_sign_signed by (simpl; lia).
    replace (_ <? _) with true by lia. injection. lia.
Qed.

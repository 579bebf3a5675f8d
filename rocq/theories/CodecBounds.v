(** Exactly which accesses to fields succeed, panic and leave the memory, for
    buffers of any length. *)
From Verif Require Import Base BaseFacts Codec CodecSpec CodecFacts.

(** The bytes that are copied as one word, starting with the first byte of the
    field. *)
Definition word_bytes (off nb : Z) : Z := Z.min 8 ((off mod 8 + nb + 7) / 8).

(** The buffer length a read needs. *)
Definition read_needs (off nb : Z) : Z :=
  if off mod 8 + nb <=? 64 then (off + nb + 7) / 8 else 2 * (off / 8) + 9.

Lemma num_bytes_word off nb : 0 <= off -> 1 <= nb <= 64 -> num_bytes off nb = word_bytes off nb.
Proof.
  intros. unfold num_bytes, word_bytes. destruct (Z.ltb_spec (nb + off mod 8) 64); lia.
Qed.

Lemma load_u64_out e m pos n : 0 <= pos -> 0 <= n <= 8 -> len m < pos + n ->
  load_u64 e m pos n = UB.
Proof.
  intros Hp Hn Hl. unfold load_u64. replace (n <=? 8) with true by lia.
  unfold mem_read. replace (_ && _ && _) with false by lia. reflexivity.
Qed.

Theorem write_ends b e t v m off nb : bytes_ok m -> 0 <= off -> 1 <= nb <= 64 ->
  if (len m <=? off / 8) || ((off <? 8) && (64 <? off + nb) && (len m =? 8))
  then write_bytes b e t v m off nb = Panic
  else if len m <? off / 8 + word_bytes off nb
  then write_bytes b e t v m off nb = UB
  else exists m', write_bytes b e t v m off nb = Ret m' /\ bytes_ok m' /\ len m' = len m.
Proof.
  intros Hm Ho Hnb. unfold write_bytes.
  replace (match b with Debug => 64 <? nb | Release => false end) with false
    by (destruct b; lia).
  rewrite num_bytes_word by lia.
  assert (Hw : 1 <= word_bytes off nb <= 8) by (unfold word_bytes; lia).
  destruct (Z.leb_spec (len m) (off / 8)) as [L|L]; cbn [orb].
  { replace (negb (off / 8 <? len m)) with true by lia. reflexivity. }
  replace (negb (off / 8 <? len m)) with false by lia. cbv zeta.
  set (n := word_bytes off nb) in *.
  destruct (Z.ltb_spec (len m) (off / 8 + n)) as [L2|L2].
  { replace ((off <? 8) && (64 <? off + nb) && (len m =? 8)) with false
      by (unfold n, word_bytes in *; lia).
    rewrite load_u64_out by lia. reflexivity. }
  destruct (load_u64_ok e m (off / 8) n) as (r & Hr & _); try lia; auto.
  rewrite Hr. cbn [obind].
  match goal with |- context [store_u64 e m (off / 8) (to_le e ?x) n] =>
    destruct (store_u64_ok e m (off / 8) x n) as (m1 & H1 & Hm1 & Hl1 & _); try lia; auto;
    rewrite H1; cbn [obind] end.
  rewrite Hl1.
  destruct ((off <? 8) && (64 <? off + nb) && (len m =? 8)) eqn:E.
  { replace (n * 8 - off mod 8 <? nb) with true by (unfold n, word_bytes in *; lia).
    replace (negb (n <? len m)) with true by (unfold n, word_bytes in *; lia). reflexivity. }
  destruct (Z.ltb_spec (n * 8 - off mod 8) nb) as [B|B]; [|eauto].
  assert (n = 8) by (unfold n, word_bytes in *; lia).
  replace (negb (n <? len m)) with false by (unfold n, word_bytes in *; lia).
  assert (Hn8 : n < len m) by (unfold n, word_bytes in *; lia).
  rewrite mem_get_ok by lia. cbn [obind].
  match goal with |- exists m', mem_write m1 n [Z.lor (Z.land ?o ?x) (u8 ?y)] = _ /\ _ =>
    assert (Hb : is_byte (Z.lor (Z.land o x) (u8 y))); [|set (nw := Z.lor (Z.land o x) (u8 y)) in *] end.
  { assert (Ho1 : is_byte (nth (Z.to_nat n) m1 0)) by now apply bytes_ok_nth.
    match goal with |- is_byte (Z.lor (Z.land ?o ?x) (u8 ?y)) =>
      assert (Hk : Z.lor (Z.land o x) (u8 y) = Z.lor (Z.land o x) (u8 y) mod 256) end.
    { apply Z.bits_inj'. intros j Hj. change 256 with (2 ^ 8).
      destruct (Z.ltb_spec j 8).
      - now rewrite Z.mod_pow2_bits_low by lia.
      - rewrite Z.mod_pow2_bits_high by lia.
        rewrite Z.lor_spec, Z.land_spec, (is_byte_testbit _ j Ho1) by lia.
        cbn [andb orb]. unfold u8. now apply Z.mod_pow2_bits_high; lia. }
    rewrite Hk. apply is_byte_mod. }
  assert (Hl2 : len [nw] = 1) by reflexivity.
  assert (len m1 = len m) by exact Hl1.
  rewrite mem_write_ok by lia.
  eexists. split; [reflexivity|]. split.
  - apply bytes_ok_splice; auto. now constructor.
  - rewrite len_splice by lia. lia.
Qed.

Lemma extend_sign_ret b t x nb : 1 <= nb <= width t -> exists y, extend_sign b t x nb = Ret y.
Proof.
  intros H. unfold extend_sign. destruct (is_signed t); [|eauto].
  unfold usub, wrap_or_panic.
  assert (width t <= 64) by (destruct t; cbn; lia).
  replace ((0 <=? width t - nb) && (width t - nb <? usize_limit)) with true
    by (unfold usize_limit; lia).
  cbn [obind]. eauto.
Qed.

Lemma read_int_ends b e t m off nb : bytes_ok m -> 0 <= off -> 1 <= nb <= 64 -> nb <= width t ->
  if len m <? read_needs off nb
  then read_bytes_int b e t m off nb = UB
  else exists v, read_bytes_int b e t m off nb = Ret v.
Proof.
  intros Hm Ho Hnb Ht. unfold read_bytes_int, read_needs.
  destruct (Z.eqb_spec nb 1) as [->|N].
  - replace (off mod 8 + 1 <=? 64) with true by lia.
    destruct (Z.ltb_spec (len m) ((off + 1 + 7) / 8)).
    + unfold mem_get. replace (_ && _) with false by lia. reflexivity.
    + rewrite mem_get_ok by lia. cbn [obind]. eauto.
  - cbv zeta. rewrite num_bytes_word by lia.
    assert (Hw : 1 <= word_bytes off nb <= 8) by (unfold word_bytes; lia).
    set (n := word_bytes off nb) in *.
    destruct (Z.ltb_spec (len m) (off / 8 + n)) as [L|L].
    { rewrite load_u64_out by lia. destruct (off mod 8 + nb <=? 64) eqn:E.
      - replace (len m <? (off + nb + 7) / 8) with true by (unfold n, word_bytes in *; lia).
        reflexivity.
      - replace (len m <? 2 * (off / 8) + 9) with true by (unfold n, word_bytes in *; lia).
        reflexivity. }
    destruct (load_u64_ok e m (off / 8) n) as (r & Hr & _); try lia; auto.
    rewrite Hr. cbn [obind].
    destruct (Z.leb_spec (off mod 8 + nb) 64) as [E|E].
    + replace (n * 8 - off mod 8 <? nb) with false by (unfold n, word_bytes in *; lia).
      replace (len m <? (off + nb + 7) / 8) with false by (unfold n, word_bytes in *; lia).
      cbn [obind]. apply extend_sign_ret. lia.
    + replace (n * 8 - off mod 8 <? nb) with true by (unfold n, word_bytes in *; lia).
      replace n with 8 by (unfold n, word_bytes in *; lia).
      destruct (Z.ltb_spec (len m) (2 * (off / 8) + 9)).
      * unfold mem_get. replace (_ && _) with false by lia. reflexivity.
      * rewrite mem_get_ok by lia. cbn [obind]. apply extend_sign_ret. lia.
Qed.

Theorem read_ends b e t m off nb : bytes_ok m -> 0 <= off -> 1 <= nb <= width t ->
  if len m <? read_needs off nb
  then read_bytes b e t m off nb = UB
  else exists v, read_bytes b e t m off nb = Ret v.
Proof.
  intros Hm Ho Hnb.
  assert (Hw : width t <= 64) by (destruct t; cbn; lia).
  destruct t; try (apply (read_int_ends b e _ m off nb); auto; lia).
  pose proof (read_int_ends b e U8 m off nb Hm Ho ltac:(lia)
    ltac:(cbn [width] in *; lia)) as H.
  cbn [read_bytes]. destruct (len m <? read_needs off nb).
  - rewrite H. reflexivity.
  - destruct H as (v & ->). cbn [obind]. eauto.
Qed.

Theorem write_unchecked b e t v m off nb : bytes_ok m -> 0 <= off -> 1 <= nb <= 64 ->
  off / 8 < len m -> 8 * len m < off + nb ->
  (write_bytes b e t v m off nb = Panic <-> off < 8 /\ 64 < off + nb /\ len m = 8).
Proof.
  intros Hm Ho Hnb Hi Hx. pose proof (write_ends b e t v m off nb Hm Ho Hnb) as H.
  replace (len m <=? off / 8) with false in H by lia. cbn [orb] in H.
  destruct ((off <? 8) && (64 <? off + nb) && (len m =? 8)) eqn:E.
  - split; [lia|auto].
  - split; [|lia]. intros P. exfalso.
    destruct (len m <? off / 8 + word_bytes off nb).
    + congruence.
    + destruct H as (m' & H & _). congruence.
Qed.

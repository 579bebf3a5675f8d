(** Proofs about the codec model. *)
From Verif Require Import Base BaseFacts Codec CodecSpec.

(** * Bits *)
Lemma testbit_mod a n j : 0 <= n -> 0 <= j ->
  Z.testbit (a mod 2 ^ n) j = (j <? n) && Z.testbit a j.
Proof.
  intros. destruct (Z.ltb_spec j n).
  - now rewrite Z.mod_pow2_bits_low by lia.
  - now rewrite Z.mod_pow2_bits_high by lia.
Qed.

Lemma testbit_small a n j : 0 <= n -> 0 <= a < 2 ^ n -> n <= j -> Z.testbit a j = false.
Proof.
  intros. rewrite <- (Z.mod_small a (2 ^ n)) by lia.
  apply Z.mod_pow2_bits_high. lia.
Qed.

Lemma testbit_ones n j : 0 <= n -> 0 <= j -> Z.testbit (Z.ones n) j = (j <? n).
Proof.
  intros. destruct (Z.ltb_spec j n).
  - apply Z.ones_spec_low; lia.
  - apply Z.ones_spec_high; lia.
Qed.

Lemma testbit_range a n : 0 <= n -> 0 <= a ->
  (forall j, n <= j -> Z.testbit a j = false) -> a < 2 ^ n.
Proof.
  intros Hn Ha H.
  assert (a mod 2 ^ n = a) as <-.
  { apply Z.bits_inj'. intros j Hj. rewrite testbit_mod by lia.
    destruct (Z.ltb_spec j n); simpl; auto. symmetry; auto. }
  apply Z.mod_pos_bound. apply Z.pow_pos_nonneg; lia.
Qed.

Lemma is_byte_testbit x j : is_byte x -> 8 <= j -> Z.testbit x j = false.
Proof. unfold is_byte; intros. apply (testbit_small x 8); lia. Qed.

Lemma is_byte_mod x : is_byte (x mod 256).
Proof. unfold is_byte. apply Z.mod_pos_bound; lia. Qed.

(** Buffers are determined by their bits. *)
Lemma bit_at_div m k j : 0 <= k -> 0 <= j < 8 ->
  bit_at m (8 * k + j) = Z.testbit (nth (Z.to_nat k) m 0) j.
Proof.
  intros. unfold bit_at.
  replace ((8 * k + j) / 8) with k by lia.
  replace ((8 * k + j) mod 8) with j by lia. reflexivity.
Qed.

Lemma bit_at_overflow m i : 8 * len m <= i -> bit_at m i = false.
Proof.
  intros. unfold bit_at. rewrite nth_overflow. apply Z.testbit_0_l.
  unfold len in *. lia.
Qed.

Lemma byte_ext x y : is_byte x -> is_byte y ->
  (forall j, 0 <= j < 8 -> Z.testbit x j = Z.testbit y j) -> x = y.
Proof.
  intros Hx Hy H. apply Z.bits_inj'. intros j Hj.
  destruct (Z.ltb_spec j 8). apply H; lia.
  now rewrite !is_byte_testbit by (assumption || lia).
Qed.

Lemma bytes_ext a b : bytes_ok a -> bytes_ok b -> len a = len b ->
  (forall i, 0 <= i < 8 * len a -> bit_at a i = bit_at b i) -> a = b.
Proof.
  intros Ha Hb Hl H. apply list_ext_Z; auto.
  intros i Hi. apply byte_ext; try now apply bytes_ok_nth.
  intros j Hj. rewrite <- !bit_at_div by lia. apply H. lia.
Qed.

Lemma bit_at_cons x l i : 0 <= i ->
  bit_at (x :: l) i = if i <? 8 then Z.testbit x i else bit_at l (i - 8).
Proof.
  intros. destruct (Z.ltb_spec i 8).
  - unfold bit_at. replace (i / 8) with 0 by lia.
    replace (i mod 8) with i by lia. reflexivity.
  - unfold bit_at. replace (Z.to_nat (i / 8)) with (S (Z.to_nat ((i - 8) / 8))) by lia.
    replace ((i - 8) mod 8) with (i mod 8) by lia. reflexivity.
Qed.

(** * Little-endian values *)
Lemma le_val_range l : bytes_ok l -> 0 <= le_val l < 2 ^ (8 * len l).
Proof.
  induction 1 as [|x l Hx _ IH]; [rewrite len_nil; simpl; lia|].
  rewrite len_cons. replace (8 * (1 + len l)) with (8 + 8 * len l) by lia.
  pose proof (len_nonneg l).
  rewrite Z.pow_add_r by lia. simpl le_val. unfold is_byte in Hx.
  change (2 ^ 8) with 256.
  set (P := 2 ^ (8 * len l)) in *. clearbody P. lia.
Qed.

Lemma le_val_testbit l : bytes_ok l -> forall j, 0 <= j -> Z.testbit (le_val l) j = bit_at l j.
Proof.
  induction 1 as [|x l Hx Hl IH]; intros j Hj.
  - simpl. rewrite Z.testbit_0_l, bit_at_overflow; auto.
  - rewrite bit_at_cons by lia. simpl le_val.
    pose proof (le_val_range l Hl).
    unfold is_byte in Hx. destruct (Z.ltb_spec j 8).
    + rewrite <- (Z.mod_pow2_bits_low (x + 256 * le_val l) 8 j) by lia.
      f_equal. change (2 ^ 8) with 256. lia.
    + replace j with ((j - 8) + 8) at 1 by lia.
      rewrite <- Z.div_pow2_bits by lia. rewrite <- IH by lia.
      f_equal. change (2 ^ 8) with 256. lia.
Qed.

Lemma le_bytes_length n v : length (le_bytes n v) = n.
Proof. revert v; induction n; intros; simpl; auto. Qed.

Lemma le_bytes_ok n v : bytes_ok (le_bytes n v).
Proof. revert v; induction n; intros; simpl; constructor; auto using is_byte_mod. apply IHn. Qed.

Lemma le_bytes_bit n v j : 0 <= j ->
  bit_at (le_bytes n v) j = (j <? 8 * Z.of_nat n) && Z.testbit v j.
Proof.
  revert v j; induction n; intros v j Hj.
  - simpl le_bytes. rewrite bit_at_overflow by (rewrite len_nil; lia).
    replace (j <? _) with false by lia. reflexivity.
  - simpl le_bytes. rewrite bit_at_cons by lia.
    destruct (Z.ltb_spec j 8).
    + replace (j <? _) with true by lia.
      change 256 with (2 ^ 8). rewrite testbit_mod by lia.
      now replace (j <? 8) with true by lia.
    + rewrite IHn by lia. f_equal; [lia|].
      change 256 with (2 ^ 8). rewrite Z.div_pow2_bits by lia. f_equal; lia.
Qed.

Lemma le_bytes_val l : bytes_ok l -> le_bytes (length l) (le_val l) = l.
Proof.
  intros H. apply bytes_ext; auto using le_bytes_ok.
  - unfold len. now rewrite le_bytes_length.
  - intros i Hi. unfold len in Hi. rewrite le_bytes_length in Hi.
    rewrite le_bytes_bit, le_val_testbit by (auto; lia).
    now replace (i <? _) with true by lia.
Qed.

Lemma le_val_bytes n v : le_val (le_bytes n v) = v mod 2 ^ (8 * Z.of_nat n).
Proof.
  apply Z.bits_inj'. intros j Hj.
  rewrite le_val_testbit, le_bytes_bit, testbit_mod; auto using le_bytes_ok; lia.
Qed.

(** * Host byte order *)
Lemma from_le_of_mem e l : bytes_ok l -> length l = 8%nat ->
  from_le e (u64_of_mem e l) = le_val l.
Proof.
  intros Hl Hn. destruct e; simpl; auto.
  unfold swap64. replace 8%nat with (length (rev l)) by now rewrite rev_length.
  rewrite le_bytes_val by now apply bytes_ok_rev. now rewrite rev_involutive.
Qed.

Lemma to_mem_to_le e v : u64_to_mem e (to_le e v) = le_bytes 8 v.
Proof.
  destruct e; [reflexivity|]. unfold u64_to_mem, to_le, from_le, swap64.
  replace (le_bytes 8 (le_val (rev (le_bytes 8 v)))) with (rev (le_bytes 8 v)).
  - apply rev_involutive.
  - symmetry. rewrite <- (le_bytes_val (rev (le_bytes 8 v))) at 2
      by (apply bytes_ok_rev, le_bytes_ok).
    now rewrite rev_length, le_bytes_length.
Qed.

(** * Loading and storing *)
Definition loaded (m : list Z) (pos n : Z) : Z :=
  le_val (firstn (Z.to_nat n) (skipn (Z.to_nat pos) m) ++ zeros (8 - n)).

Lemma load_u64_ok e m pos n : bytes_ok m -> 0 <= pos -> 0 <= n <= 8 -> pos + n <= len m ->
  exists r, load_u64 e m pos n = Ret r /\ from_le e r = loaded m pos n.
Proof.
  intros Hm Hp Hn Hl. unfold load_u64. replace (n <=? 8) with true by lia.
  rewrite mem_read_ok by lia. simpl. eexists; split; [reflexivity|].
  apply from_le_of_mem.
  - apply bytes_ok_app. split; auto using bytes_ok_zeros, bytes_ok_firstn, bytes_ok_skipn.
  - rewrite app_length, firstn_length, skipn_length. unfold zeros.
    rewrite repeat_length. unfold len in *. lia.
Qed.

Lemma bit_at_app a b i : 0 <= i ->
  bit_at (a ++ b) i = if i <? 8 * len a then bit_at a i else bit_at b (i - 8 * len a).
Proof.
  intros. unfold bit_at. destruct (Z.ltb_spec i (8 * len a)); unfold len in *.
  - rewrite app_nth1 by lia. reflexivity.
  - rewrite app_nth2 by lia.
    replace ((i - 8 * Z.of_nat (length a)) mod 8) with (i mod 8) by lia.
    do 2 f_equal. lia.
Qed.

Lemma bit_at_firstn n l i : 0 <= i < 8 * n -> bit_at (firstn (Z.to_nat n) l) i = bit_at l i.
Proof. intros. unfold bit_at. rewrite nth_firstn_lt by lia. reflexivity. Qed.

Lemma bit_at_skipn n l i : 0 <= n -> 0 <= i ->
  bit_at (skipn (Z.to_nat n) l) i = bit_at l (8 * n + i).
Proof.
  intros. unfold bit_at. rewrite nth_skipn_add.
  replace ((8 * n + i) mod 8) with (i mod 8) by lia. do 2 f_equal. lia.
Qed.

Lemma bit_at_zeros n i : bit_at (zeros n) i = false.
Proof. unfold bit_at. rewrite nth_zeros. apply Z.testbit_0_l. Qed.

Lemma loaded_testbit m pos n j : bytes_ok m -> 0 <= pos -> 0 <= n <= 8 -> pos + n <= len m ->
  0 <= j -> Z.testbit (loaded m pos n) j = (j <? 8 * n) && bit_at m (8 * pos + j).
Proof.
  intros. unfold loaded. rewrite le_val_testbit; [|apply bytes_ok_app;
    split; auto using bytes_ok_zeros, bytes_ok_firstn, bytes_ok_skipn|lia].
  rewrite bit_at_app by lia.
  rewrite len_firstn by (rewrite len_skipn; lia).
  destruct (Z.ltb_spec j (8 * n)); simpl.
  - rewrite bit_at_firstn, bit_at_skipn by lia. reflexivity.
  - apply bit_at_zeros.
Qed.

Lemma store_u64_ok e m pos v n : bytes_ok m -> 0 <= pos -> 0 <= n <= 8 -> pos + n <= len m ->
  exists m', store_u64 e m pos (to_le e v) n = Ret m' /\ bytes_ok m' /\ len m' = len m /\
    forall i, 0 <= i -> bit_at m' i =
      if (8 * pos <=? i) && (i <? 8 * (pos + n)) then Z.testbit v (i - 8 * pos)
      else bit_at m i.
Proof.
  intros Hm Hp Hn Hl. unfold store_u64. replace (n <=? 8) with true by lia.
  rewrite to_mem_to_le.
  assert (Hlen : len (firstn (Z.to_nat n) (le_bytes 8 v)) = n).
  { apply len_firstn. unfold len. rewrite le_bytes_length. lia. }
  rewrite mem_write_ok by lia.
  eexists; split; [reflexivity|]. split; [|split].
  - apply bytes_ok_splice; auto. apply bytes_ok_firstn, le_bytes_ok.
  - apply len_splice; lia.
  - intros i Hi. unfold bit_at at 1. rewrite nth_splice by lia. rewrite Hlen.
    destruct (Z.leb_spec (8 * pos) i), (Z.ltb_spec i (8 * (pos + n))); simpl.
    + replace ((pos <=? i / 8) && (i / 8 <? pos + n)) with true by lia.
      rewrite nth_firstn_lt by lia.
      replace (i / 8 - pos) with ((i - 8 * pos) / 8) by lia.
      replace (i mod 8) with ((i - 8 * pos) mod 8) by lia.
      change (bit_at (le_bytes 8 v) (i - 8 * pos) = Z.testbit v (i - 8 * pos)).
      rewrite le_bytes_bit by lia.
      replace (_ <? _) with true by lia. reflexivity.
    + replace ((pos <=? i / 8) && (i / 8 <? pos + n)) with false by lia. reflexivity.
    + replace ((pos <=? i / 8) && (i / 8 <? pos + n)) with false by lia. reflexivity.
    + lia.
Qed.

(** * Field values *)
Lemma val_of_bits_range n f : 0 <= val_of_bits n f < 2 ^ Z.of_nat n.
Proof.
  induction n. simpl; lia.
  simpl val_of_bits. rewrite Nat2Z.inj_succ, Z.pow_succ_r by lia.
  destruct (f _); lia.
Qed.

Lemma val_of_bits_testbit n f j : 0 <= j ->
  Z.testbit (val_of_bits n f) j = (j <? Z.of_nat n) && f j.
Proof.
  intros Hj. induction n.
  - simpl. rewrite Z.testbit_0_l. now replace (j <? Z.of_nat 0) with false by lia.
  - simpl val_of_bits. pose proof (val_of_bits_range n f) as Hr.
    set (k := Z.of_nat n) in *. assert (0 <= k) by lia.
    replace (Z.of_nat (S n)) with (k + 1) by lia.
    destruct (Z.eq_dec j k) as [->|Hne].
    + replace (k <? k + 1) with true by lia. simpl.
      rewrite Z.testbit_odd, Z.shiftr_div_pow2 by lia.
      destruct (f k).
      * replace ((val_of_bits n f + 2 ^ k) / 2 ^ k) with 1; [reflexivity|].
        symmetry. replace (val_of_bits n f + 2 ^ k) with (1 * 2 ^ k + val_of_bits n f) by lia.
        rewrite Z.div_add_l by lia. rewrite Z.div_small by lia. lia.
      * rewrite Z.add_0_r, Z.div_small by lia. reflexivity.
    + replace (j <? k + 1) with (j <? k) by lia. rewrite <- IHn.
      destruct (f k); [|now rewrite Z.add_0_r].
      destruct (Z.ltb_spec j k).
      * rewrite <- (Z.mod_pow2_bits_low (_ + _) k) by lia.
        rewrite <- (Z.mod_pow2_bits_low (val_of_bits n f) k) by lia.
        f_equal. replace (val_of_bits n f + 2 ^ k) with (val_of_bits n f + 1 * 2 ^ k) by lia.
        now rewrite Z.mod_add by lia.
      * rewrite (testbit_small _ (k + 1)), (testbit_small _ k); auto; try lia.
        rewrite Z.pow_add_r by lia. lia.
Qed.

Lemma field_unsigned_testbit m off nb j : 0 <= nb -> 0 <= j ->
  Z.testbit (field_unsigned m off nb) j = (j <? nb) && bit_at m (off + j).
Proof.
  intros. unfold field_unsigned. rewrite val_of_bits_testbit by lia.
  now rewrite Z2Nat.id by lia.
Qed.

Lemma field_unsigned_range m off nb : 0 <= nb -> 0 <= field_unsigned m off nb < 2 ^ nb.
Proof.
  intros. unfold field_unsigned.
  pose proof (val_of_bits_range (Z.to_nat nb) (fun j => bit_at m (off + j))).
  now rewrite Z2Nat.id in H0 by lia.
Qed.

(** * Reading *)
Lemma num_bytes_window off nb : 0 <= off -> 1 <= nb <= 64 ->
  0 <= num_bytes off nb <= 8 /\
    (off mod 8 + nb <= 64 ->
     8 * (off / 8 + num_bytes off nb) = 8 * ((off + nb + 7) / 8) /\
    (num_bytes off nb * 8 - off mod 8 <? nb) = false) /\
    (64 < off mod 8 + nb ->
     num_bytes off nb = 8 /\
    (num_bytes off nb * 8 - off mod 8 <? nb) = true).
Proof.
  intros. unfold num_bytes. destruct (Z.ltb_spec (nb + off mod 8) 64); lia.
Qed.

Lemma masked_testbit v nb j : 0 <= nb -> 0 <= j -> 0 <= v < 2 ^ 64 ->
  Z.testbit (masked v nb) j = (j <? nb) && Z.testbit v j.
Proof.
  intros. unfold masked. destruct (Z.ltb_spec nb 64).
  - replace (Z.shiftl 1 nb - 1) with (Z.ones nb) by now rewrite Z.ones_equiv, Z.shiftl_1_l; lia.
    rewrite Z.land_spec, testbit_ones by lia. apply andb_comm.
  - destruct (Z.ltb_spec j nb); auto. simpl. apply (testbit_small v 64); lia.
Qed.

Lemma masked_range v nb : 0 <= nb -> 0 <= v < 2 ^ 64 -> 0 <= masked v nb < 2 ^ 64.
Proof.
  intros. assert (0 <= masked v nb).
  { unfold masked. destruct (nb <? 64); [|lia]. apply Z.land_nonneg; lia. }
  split; auto. apply testbit_range; try lia.
  intros. rewrite masked_testbit by lia. rewrite (testbit_small v 64) by lia.
  apply andb_false_r.
Qed.

Lemma u64_range v : 0 <= u64 v < 2 ^ 64.
Proof. apply Z.mod_pos_bound; lia. Qed.

Lemma u64_testbit v j : 0 <= j -> Z.testbit (u64 v) j = (j <? 64) && Z.testbit v j.
Proof. intros. unfold u64. apply testbit_mod; lia. Qed.

(** Reading more than one bit, before the sign extension. *)
Lemma read_raw e m off nb : bytes_ok m -> field_inside m off nb -> layout_ok off nb ->
  1 <= nb <= 64 ->
  let n := num_bytes off nb in
  exists r, load_u64 e m (off / 8) n = Ret r /\
    exists r2,
    (if n * 8 - off mod 8 <? nb then
       temp <- mem_get m (off / 8 + (off / 8 + n)) ;;
       Ret (Z.lor (Z.shiftr (from_le e r) (off mod 8))
              (u64 (Z.shiftl temp ((n * 8 - off mod 8) mod (n * 8)))))
     else Ret (Z.shiftr (from_le e r) (off mod 8))) = Ret r2 /\
    masked r2 nb = field_unsigned m off nb.
Proof.
  intros Hm [Ho Hi] HL Hnb n.
  destruct (num_bytes_window off nb) as (Hn & Hs & Hw); try lia. fold n in Hn, Hs, Hw.
  assert (Hlen : off / 8 + n <= len m) by (unfold layout_ok in HL; lia).
  destruct (load_u64_ok e m (off / 8) n) as (r & Hr & Hf); try lia; auto.
  exists r. split; auto. rewrite Hf.
  assert (Hb : forall j, 0 <= j -> Z.testbit (Z.shiftr (loaded m (off / 8) n) (off mod 8)) j
    = (off mod 8 + j <? 8 * n) && bit_at m (off + j)).
  { intros. rewrite Z.shiftr_spec by lia. rewrite loaded_testbit by (auto; lia).
    f_equal; [lia|]. f_equal; lia. }
  assert (H0 : 0 <= Z.shiftr (loaded m (off / 8) n) (off mod 8)).
  { apply Z.shiftr_nonneg. unfold loaded. apply le_val_range.
    apply bytes_ok_app. split; auto using bytes_ok_zeros, bytes_ok_firstn, bytes_ok_skipn. }
  destruct (Z.leb_spec (off mod 8 + nb) 64) as [Hc|Hc].
  - destruct (Hs Hc) as [Hwin ->]. eexists; split; [reflexivity|].
    apply Z.bits_inj'. intros j Hj. rewrite field_unsigned_testbit by lia.
    rewrite masked_testbit.
    + rewrite Hb by lia. destruct (Z.ltb_spec j nb); auto. simpl.
      now replace (_ <? _) with true by lia.
    + lia.
    + lia.
    + split; auto. apply testbit_range; try lia. intros k Hk. rewrite Hb by lia.
      now replace (_ <? _) with false by lia.
  - destruct (Hw Hc) as [Hn8 ->]. unfold layout_ok in HL. rewrite Hn8 in *.
    assert (Hz : off / 8 = 0) by lia. rewrite Hz in *.
    assert (8 < len m) by lia.
    rewrite mem_get_ok by lia. simpl obind. eexists; split; [reflexivity|].
    replace (0 + (0 + 8)) with 8 by lia.
    change (8 * 8) with 64. rewrite (Z.mod_small (64 - off mod 8)) by lia.
    assert (Hbb : is_byte (nth (Z.to_nat 8) m 0)) by now apply bytes_ok_nth.
    assert (Hv : forall j, 0 <= j ->
      Z.testbit (Z.lor (Z.shiftr (loaded m 0 8) (off mod 8))
         (u64 (Z.shiftl (nth (Z.to_nat 8) m 0) (64 - off mod 8)))) j
      = (j <? 64) && bit_at m (off + j)).
    { intros j Hj. rewrite Z.lor_spec, Hb, u64_testbit, Z.shiftl_spec by lia.
      destruct (Z.ltb_spec j 64); simpl.
      - destruct (Z.ltb_spec (off mod 8 + j) 64).
        + replace (_ <? _) with true by lia.
          rewrite (Z.testbit_neg_r _ (j - _)) by lia. apply orb_false_r.
        + replace (_ <? _) with false by lia. simpl.
          replace (off + j) with (8 * 8 + (j - (64 - off mod 8))) by lia.
          rewrite bit_at_div by lia. reflexivity.
      - replace (_ <? _) with false by lia. reflexivity. }
    apply Z.bits_inj'. intros j Hj. rewrite field_unsigned_testbit by lia.
    rewrite masked_testbit; [|lia|lia|].
    + rewrite Hv by lia. destruct (Z.ltb_spec j nb); auto. simpl.
      now replace (_ <? _) with true by lia.
    + assert (0 <= Z.lor (Z.shiftr (loaded m 0 8) (off mod 8))
         (u64 (Z.shiftl (nth (Z.to_nat 8) m 0) (64 - off mod 8)))).
      { apply Z.lor_nonneg. split; auto. apply u64_range. }
      split; auto. apply testbit_range; try lia. intros k Hk. rewrite Hv by lia.
      now replace (_ <? _) with false by lia.
Qed.

Lemma width_cases t : width t = 8 \/ width t = 16 \/ width t = 32 \/ width t = 64.
Proof. destruct t; simpl; auto. Qed.

Lemma land_bit x k : 0 <= k -> (Z.land x (Z.shiftl 1 k) =? 0) = negb (Z.testbit x k).
Proof.
  intros. destruct (Z.testbit x k) eqn:E; simpl.
  - apply Z.eqb_neq. intros H0. assert (Z.testbit (Z.land x (Z.shiftl 1 k)) k = false)
      by now rewrite H0, Z.testbit_0_l.
    rewrite Z.land_spec, Z.shiftl_spec, E, Z.sub_diag in H1 by lia. discriminate.
  - apply Z.eqb_eq. apply Z.bits_inj'. intros j Hj. rewrite Z.land_spec, Z.bits_0.
    rewrite Z.shiftl_spec by lia. destruct (Z.eq_dec j k) as [->|].
    + now rewrite E.
    + destruct (Z.ltb_spec j k).
      * rewrite (Z.testbit_neg_r _ (j - k)) by lia. apply andb_false_r.
      * rewrite (testbit_small 1 1) by lia. apply andb_false_r.
Qed.

Lemma field_unsigned_1 m off : field_unsigned m off 1 = if bit_at m off then 1 else 0.
Proof.
  unfold field_unsigned. change (Z.to_nat 1) with 1%nat. simpl val_of_bits.
  rewrite Z.add_0_r. destruct (bit_at m off); reflexivity.
Qed.

(** General form of a read. *)
Lemma read_bytes_int_gen b e t m off nb :
  bytes_ok m -> field_inside m off nb -> layout_ok off nb -> 1 <= nb <= 64 ->
  read_bytes_int b e t m off nb =
    if nb =? 1 then Ret (field_unsigned m off nb)
    else extend_sign b t (field_unsigned m off nb) nb.
Proof.
  intros Hm Hi HL Hnb. unfold read_bytes_int.
  destruct (Z.eqb_spec nb 1) as [->|Hne].
  - destruct Hi. rewrite mem_get_ok by lia. simpl obind.
    rewrite land_bit by lia. rewrite field_unsigned_1.
    change (Z.testbit (nth (Z.to_nat (off / 8)) m 0) (off mod 8)) with (bit_at m off).
    destruct (bit_at m off); reflexivity.
  - destruct (read_raw e m off nb) as (r & Hr & r2 & Hr2 & Hmask); auto.
    rewrite Hr. simpl obind. rewrite Hr2. simpl obind. now rewrite Hmask.
Qed.

(** * Sign extension *)
Lemma cast_signed_unique t x y k : is_signed t = true ->
  - 2 ^ (width t - 1) <= y < 2 ^ (width t - 1) -> x = y + k * 2 ^ width t -> cast t x = y.
Proof.
  intros Hs Hy ->. unfold cast. rewrite Hs.
  assert (Hw : 2 ^ width t = 2 * 2 ^ (width t - 1))
    by (rewrite <- Z.pow_succ_r by (destruct t; simpl; lia); f_equal; lia).
  replace (y + k * 2 ^ width t + 2 ^ (width t - 1))
    with (y + 2 ^ (width t - 1) + k * 2 ^ width t) by lia.
  assert (0 < 2 ^ (width t - 1)) by (destruct t; simpl; lia).
  rewrite Z.mod_add by lia. rewrite Z.mod_small by lia. lia.
Qed.

Lemma cast_signed_cong t x : is_signed t = true ->
  exists k, cast t x = x + k * 2 ^ width t.
Proof.
  intros Hs. unfold cast. rewrite Hs.
  exists (- ((x + 2 ^ (width t - 1)) / 2 ^ width t)).
  rewrite Z.mod_eq by (destruct t; simpl; lia). lia.
Qed.

Lemma extend_sign_signed b t v nb : is_signed t = true -> 1 <= nb <= width t ->
  0 <= v < 2 ^ nb ->
  extend_sign b t v nb = Ret (if v <? 2 ^ (nb - 1) then v else v - 2 ^ nb).
Proof.
  intros Hs Hnb Hv. unfold extend_sign. rewrite Hs.
  pose proof (width_cases t) as Hw. unfold usub, wrap_or_panic, usize_limit.
  replace ((0 <=? width t - nb) && (width t - nb <? 2 ^ 64)) with true by lia.
  simpl obind. rewrite (Z.mod_small (width t - nb) (2 ^ 32)) by lia.
  rewrite (Z.mod_small (width t - nb)) by lia.
  set (s := width t - nb).
  assert (Hpw : 2 ^ width t = 2 ^ nb * 2 ^ s)
    by (rewrite <- Z.pow_add_r by lia; f_equal; lia).
  assert (Hpn : 2 ^ nb = 2 * 2 ^ (nb - 1))
    by (rewrite <- Z.pow_succ_r by lia; f_equal; lia).
  assert (Hpw1 : 2 ^ (width t - 1) = 2 ^ (nb - 1) * 2 ^ s)
    by (rewrite <- Z.pow_add_r by lia; f_equal; lia).
  assert (Hps : 0 < 2 ^ s) by (apply Z.pow_pos_nonneg; lia).
  destruct (cast_signed_cong t v Hs) as [k Hk].
  f_equal. rewrite Z.shiftr_div_pow2, Z.shiftl_mul_pow2 by lia.
  set (r := if v <? 2 ^ (nb - 1) then v else v - 2 ^ nb).
  assert (Hr : - 2 ^ (nb - 1) <= r < 2 ^ (nb - 1)) by (unfold r; destruct (Z.ltb_spec v (2 ^ (nb - 1))); lia).
  rewrite (cast_signed_unique t _ (r * 2 ^ s)
     ((if v <? 2 ^ (nb - 1) then 0 else 1) + k * 2 ^ s)).
  - now rewrite Z.div_mul by lia.
  - auto.
  - rewrite Hpw1. nia.
  - rewrite Hk, Hpw. unfold r. destruct (v <? 2 ^ (nb - 1)); ring_simplify; lia.
Qed.

Lemma extend_sign_unsigned b t v nb : is_signed t = false ->
  extend_sign b t v nb = Ret (v mod 2 ^ width t).
Proof. intros Hs. unfold extend_sign, cast. now rewrite Hs. Qed.

(** * The read theorems *)
Theorem read_unsigned_mod b e t m off nb :
  is_signed t = false -> t <> PBool ->
  bytes_ok m -> field_inside m off nb -> layout_ok off nb -> 1 <= nb <= 64 ->
  read_bytes b e t m off nb = Ret (field_unsigned m off nb mod 2 ^ width t).
Proof.
  intros Hs Ht Hm Hi HL Hnb.
  replace (read_bytes b e t m off nb) with (read_bytes_int b e t m off nb)
    by (destruct t; try reflexivity; congruence).
  rewrite read_bytes_int_gen by auto. rewrite extend_sign_unsigned by auto.
  destruct (Z.eqb_spec nb 1) as [->|]; auto. f_equal.
  pose proof (field_unsigned_range m off 1). symmetry. apply Z.mod_small.
  assert (2 ^ 1 <= 2 ^ width t) by (destruct t; simpl; lia). lia.
Qed.

Theorem read_unsigned b e t m off nb :
  is_signed t = false -> t <> PBool ->
  bytes_ok m -> field_inside m off nb -> layout_ok off nb -> 1 <= nb <= width t ->
  read_bytes b e t m off nb = Ret (field_unsigned m off nb).
Proof.
  intros. rewrite read_unsigned_mod; auto.
  - f_equal. apply Z.mod_small. pose proof (field_unsigned_range m off nb).
    assert (2 ^ nb <= 2 ^ width t) by (apply Z.pow_le_mono_r; lia). lia.
  - pose proof (width_cases t). lia.
Qed.

Theorem read_bool b e m off nb :
  bytes_ok m -> field_inside m off nb -> layout_ok off nb -> 1 <= nb <= 8 ->
  read_bytes b e PBool m off nb = Ret (if field_unsigned m off nb =? 0 then 0 else 1).
Proof.
  intros. unfold read_bytes.
  change (read_bytes_int b e U8 m off nb) with (read_bytes b e U8 m off nb).
  rewrite read_unsigned by (auto; discriminate). reflexivity.
Qed.

Theorem read_signed b e t m off nb :
  is_signed t = true ->
  bytes_ok m -> field_inside m off nb -> layout_ok off nb -> 2 <= nb <= width t ->
  read_bytes b e t m off nb = Ret (field_signed m off nb).
Proof.
  intros Hs Hm Hi HL Hnb. pose proof (width_cases t).
  replace (read_bytes b e t m off nb) with (read_bytes_int b e t m off nb)
    by (destruct t; try reflexivity; discriminate).
  rewrite read_bytes_int_gen by (auto; lia).
  replace (nb =? 1) with false by lia.
  apply extend_sign_signed; auto. lia. apply field_unsigned_range; lia.
Qed.

Theorem read_signed_1 b e t m off :
  is_signed t = true ->
  bytes_ok m -> field_inside m off 1 ->
  read_bytes b e t m off 1 = Ret (field_unsigned m off 1).
Proof.
  intros Hs Hm Hi.
  replace (read_bytes b e t m off 1) with (read_bytes_int b e t m off 1)
    by (destruct t; try reflexivity; discriminate).
  rewrite read_bytes_int_gen; auto; try lia. right; lia.
Qed.

(** * Writing *)
Lemma not64_testbit v j : 0 <= j -> Z.testbit (not64 v) j = (j <? 64) && negb (Z.testbit v j).
Proof. intros. unfold not64. rewrite Z.ldiff_spec, testbit_ones by lia. reflexivity. Qed.

Lemma u8_testbit v j : 0 <= j -> Z.testbit (u8 v) j = (j <? 8) && Z.testbit v j.
Proof. intros. unfold u8. apply testbit_mod; lia. Qed.

(** The bits the writer puts at the field and, for unsigned types, behind it. *)
Definition written_value (t : prim) (v nb : Z) : Z :=
  if is_signed t then masked (u64 v) nb else u64 v.

Lemma written_value_range t v nb : 0 <= nb -> 0 <= written_value t v nb < 2 ^ 64.
Proof.
  intros. unfold written_value. pose proof (u64_range v).
  destruct (is_signed t); auto. apply masked_range; lia.
Qed.

Lemma written_value_testbit t v nb j : 0 <= nb <= 64 -> 0 <= j ->
  Z.testbit (written_value t v nb) j =
    if j <? nb then Z.testbit v j
    else negb (is_signed t) && ((j <? 64) && Z.testbit v j).
Proof.
  intros. unfold written_value. pose proof (u64_range v).
  destruct (is_signed t); simpl.
  - rewrite masked_testbit, u64_testbit by lia. destruct (Z.ltb_spec j nb); auto.
    now replace (j <? 64) with true by lia.
  - rewrite u64_testbit by lia. destruct (Z.ltb_spec j nb); auto.
    now replace (j <? 64) with true by lia.
Qed.

(** What bit [i] of the buffer becomes. *)
Definition written_bit (t : prim) (v : Z) (m : list Z) (off nb i : Z) : bool :=
  if (off <=? i) && (i <? off + nb) then Z.testbit v (i - off)
  else if (off + nb <=? i) && (i <? 8 * ((off + nb + 7) / 8))
  then bit_at m i || (negb (is_signed t) && (i - off <? 64) && Z.testbit v (i - off))
  else bit_at m i.

Theorem write_bits b e t v m off nb :
  bytes_ok m -> field_inside m off nb -> layout_ok off nb -> 1 <= nb <= 64 ->
  exists m', write_bytes b e t v m off nb = Ret m' /\
    bytes_ok m' /\ len m' = len m /\
    forall i, 0 <= i -> bit_at m' i = written_bit t v m off nb i.
Proof.
  intros Hm [Ho Hi] HL Hnb. unfold write_bytes.
  replace (match b with Debug => 64 <? nb | Release => false end) with false
    by (destruct b; lia).
  replace (negb (off / 8 <? len m)) with false by lia.
  set (n := num_bytes off nb). fold (written_value t v nb).
  set (vts := written_value t v nb).
  destruct (num_bytes_window off nb) as (Hn & Hs & Hw); try lia. fold n in Hn, Hs, Hw.
  assert (Hlen : off / 8 + n <= len m) by (unfold layout_ok in HL; lia).
  destruct (load_u64_ok e m (off / 8) n) as (r & Hr & Hf); try lia; auto.
  rewrite Hr. simpl obind. rewrite Hf.
  set (vm := masked (2 ^ 64 - 1) nb).
  assert (Hvm : forall j, 0 <= j -> Z.testbit vm j = (j <? nb)).
  { intros. unfold vm. rewrite masked_testbit by lia.
    change (2 ^ 64 - 1) with (Z.ones 64). rewrite testbit_ones by lia. lia. }
  pose proof (written_value_range t v nb) as Hvr. fold vts in Hvr.
  match goal with |- context [store_u64 e m _ (to_le e ?x) n] => set (w := x) end.
  destruct (store_u64_ok e m (off / 8) w n) as (m1 & Hm1 & Hok1 & Hl1 & Hb1); auto; try lia.
  rewrite Hm1. simpl obind.
  assert (Hw64 : forall j, 0 <= j < 8 * n -> Z.testbit w j =
     (bit_at m (8 * (off / 8) + j) && negb ((off mod 8 <=? j) && (j - off mod 8 <? nb)))
     || ((off mod 8 <=? j) && Z.testbit vts (j - off mod 8))).
  { intros j Hj. unfold w. rewrite Z.lor_spec, Z.land_spec, not64_testbit, !u64_testbit by lia.
    rewrite !Z.shiftl_spec by lia. rewrite loaded_testbit by (auto; lia).
    replace (j <? 64) with true by lia. replace (j <? 8 * n) with true by lia. simpl.
    destruct (Z.leb_spec (off mod 8) j); simpl.
    - now rewrite Hvm by lia.
    - now rewrite !(Z.testbit_neg_r _ (j - off mod 8)) by lia. }
  assert (Hwin : forall i, 0 <= i -> 8 * (off / 8) <= i < 8 * (off / 8 + n) ->
     bit_at m1 i = written_bit t v m off nb i).
  { intros i Hi0 Hiw. rewrite Hb1 by lia.
    replace ((8 * (off / 8) <=? i) && _) with true by lia.
    rewrite Hw64 by lia. unfold written_bit.
    replace (8 * (off / 8) + (i - 8 * (off / 8))) with i by lia.
    replace (off mod 8 <=? i - 8 * (off / 8)) with (off <=? i) by lia.
    replace (i - 8 * (off / 8) - off mod 8) with (i - off) by lia.
    destruct (Z.leb_spec off i); simpl.
    - replace (i <? off + nb) with (i - off <? nb) by lia.
      unfold vts. rewrite written_value_testbit by lia.
      destruct (Z.ltb_spec (i - off) nb); simpl.
      + now rewrite andb_false_r.
      + rewrite andb_true_r.
        replace ((off + nb <=? i) && (i <? 8 * ((off + nb + 7) / 8))) with true by lia.
        now rewrite andb_assoc.
    - rewrite andb_true_r, orb_false_r.
      now replace (off + nb <=? i) with false by lia. }
  assert (Hout : forall i, 0 <= i -> ~ (8 * (off / 8) <= i < 8 * (off / 8 + n)) ->
     bit_at m1 i = bit_at m i).
  { intros i Hi0 Hiw. rewrite Hb1 by lia.
    now replace ((8 * (off / 8) <=? i) && _) with false by lia. }
  destruct (Z.leb_spec (off mod 8 + nb) 64) as [Hc|Hc].
  - destruct (Hs Hc) as [Hwn ->]. exists m1. repeat split; auto.
    intros i Hi0.
    destruct (Z.leb_spec (8 * (off / 8)) i); [destruct (Z.ltb_spec i (8 * (off / 8 + n)))|].
    + apply Hwin; lia.
    + rewrite Hout by lia. unfold written_bit.
      replace ((off <=? i) && _) with false by lia.
      now replace ((off + nb <=? i) && _) with false by lia.
    + rewrite Hout by lia. unfold written_bit.
      replace ((off <=? i) && _) with false by lia.
      now replace ((off + nb <=? i) && _) with false by lia.
  - destruct (Hw Hc) as [Hn8 ->]. unfold layout_ok in HL.
    assert (Hz : off / 8 = 0) by lia.
    assert (H8 : 8 < len m) by lia. rewrite Hl1.
    replace (negb (n <? len m)) with false by lia.
    rewrite mem_get_ok by lia. simpl obind.
    set (s := (n * 8 - off mod 8) mod (n * 8)).
    assert (Hsv : s = 64 - off mod 8) by (unfold s; rewrite Hn8; lia).
    set (old := nth (Z.to_nat n) m1 0).
    set (nw := Z.lor _ _).
    assert (Hold : is_byte old) by now apply bytes_ok_nth.
    assert (Hnwbit : forall j, 0 <= j -> Z.testbit nw j =
        (j <? 8) && ((Z.testbit old j && negb (s + j <? nb)) || Z.testbit vts (s + j))).
    { intros j Hj. unfold nw. rewrite Z.lor_spec, Z.land_spec, !u8_testbit, not64_testbit by lia.
      rewrite !Z.shiftr_spec by lia. rewrite Hvm by lia.
      replace (j + s) with (s + j) by lia.
      destruct (Z.ltb_spec j 8); simpl.
      - now replace (j <? 64) with true by lia.
      - now rewrite andb_false_r. }
    assert (Hnw : is_byte nw).
    { assert (0 <= nw).
      { unfold nw. apply Z.lor_nonneg. unfold u8. split.
        - apply Z.land_nonneg. unfold is_byte in Hold; lia.
        - apply Z.mod_pos_bound; lia. }
      split; auto. change 256 with (2 ^ 8). apply testbit_range; try lia.
      intros j Hj. rewrite Hnwbit by lia. now replace (j <? 8) with false by lia. }
    assert (Hl1' : len [nw] = 1) by reflexivity.
    rewrite mem_write_ok by lia.
    eexists; split; [reflexivity|]. split; [|split].
    + apply bytes_ok_splice; auto. constructor; auto.
    + rewrite len_splice by lia. auto.
    + intros i Hi0. unfold bit_at at 1. rewrite nth_splice by lia. rewrite Hl1'.
      destruct (Z.leb_spec n (i / 8)); [destruct (Z.ltb_spec (i / 8) (n + 1))|]; simpl.
      * replace (i / 8 - n) with 0 by lia. change (nth (Z.to_nat 0) [nw] 0) with nw.
        rewrite Hnwbit by lia. replace (i mod 8 <? 8) with true by lia. simpl.
        unfold written_bit.
        replace (off <=? i) with true by lia. simpl.
        replace (i <? off + nb) with (s + i mod 8 <? nb) by lia.
        replace (s + i mod 8) with (i - off) by lia.
        unfold vts. rewrite written_value_testbit by lia.
        destruct (Z.ltb_spec (i - off) nb); simpl.
        -- now rewrite andb_false_r.
        -- rewrite andb_true_r.
           replace ((off + nb <=? i) && (i <? 8 * ((off + nb + 7) / 8))) with true by lia.
           rewrite andb_assoc. f_equal.
           unfold old. rewrite <- bit_at_div by lia.
           replace (8 * n + i mod 8) with i by lia.
           apply Hout; lia.
      * change (Z.testbit (nth (Z.to_nat (i / 8)) m1 0) (i mod 8)) with (bit_at m1 i).
        rewrite Hout by lia. unfold written_bit.
        replace ((off <=? i) && _) with false by lia.
        now replace ((off + nb <=? i) && _) with false by lia.
      * change (Z.testbit (nth (Z.to_nat (i / 8)) m1 0) (i mod 8)) with (bit_at m1 i).
        apply Hwin; lia.
Qed.

(** * Consequences *)
Lemma in_range_testbit t nb v j : in_range t nb v -> is_signed t = false -> 1 <= nb ->
  nb <= j -> Z.testbit v j = false.
Proof.
  intros Hr Hs Hn Hj.
  assert (0 <= v < 2 ^ nb).
  { assert (2 ^ 1 <= 2 ^ nb) by (apply Z.pow_le_mono_r; lia).
    destruct t; simpl in *; try discriminate; try lia. }
  apply (testbit_small v nb); lia.
Qed.

Lemma write_bits_in_range t v m off nb i : 0 <= i -> 1 <= nb -> in_range t nb v ->
  written_bit t v m off nb i =
    if (off <=? i) && (i <? off + nb) then Z.testbit v (i - off) else bit_at m i.
Proof.
  intros Hi Hn Hr. unfold written_bit.
  destruct ((off <=? i) && (i <? off + nb)) eqn:E1; auto.
  destruct ((off + nb <=? i) && _) eqn:E2; auto.
  destruct (is_signed t) eqn:Es; simpl.
  - apply orb_false_r.
  - rewrite (in_range_testbit t nb) by (auto; lia).
    rewrite andb_false_r. apply orb_false_r.
Qed.

Lemma field_unsigned_ext m m' off nb : 0 <= nb ->
  (forall j, 0 <= j < nb -> bit_at m (off + j) = bit_at m' (off + j)) ->
  field_unsigned m off nb = field_unsigned m' off nb.
Proof.
  intros Hn H. apply Z.bits_inj'. intros j Hj. rewrite !field_unsigned_testbit by lia.
  destruct (Z.ltb_spec j nb); auto. simpl. apply H; lia.
Qed.

Lemma field_unsigned_mod v m off nb : 0 <= nb ->
  (forall j, 0 <= j < nb -> bit_at m (off + j) = Z.testbit v j) ->
  field_unsigned m off nb = v mod 2 ^ nb.
Proof.
  intros Hn H. apply Z.bits_inj'. intros j Hj.
  rewrite field_unsigned_testbit, testbit_mod by lia.
  destruct (Z.ltb_spec j nb); auto. simpl. apply H; lia.
Qed.

Theorem read_field_value b e t m off nb :
  bytes_ok m -> field_inside m off nb -> layout_ok off nb -> 1 <= nb <= width t ->
  read_bytes b e t m off nb = Ret (field_value t m off nb).
Proof.
  intros Hm Hi HL Hnb. unfold field_value.
  destruct (is_signed t) eqn:Hs.
  - replace (match t with PBool => _ | _ => _ end) with
      (if nb =? 1 then field_unsigned m off nb else field_signed m off nb)
      by (destruct t; try reflexivity; discriminate).
    destruct (Z.eqb_spec nb 1) as [->|].
    + now apply read_signed_1.
    + apply read_signed; auto; lia.
  - destruct t; try discriminate.
    + apply read_bool; auto.
    + apply read_unsigned; auto; discriminate.
    + apply read_unsigned; auto; discriminate.
    + apply read_unsigned; auto; discriminate.
    + apply read_unsigned; auto; discriminate.
Qed.

Lemma field_value_ext t m m' off nb : 0 <= nb ->
  (forall j, 0 <= j < nb -> bit_at m (off + j) = bit_at m' (off + j)) ->
  field_value t m off nb = field_value t m' off nb.
Proof.
  intros Hn H. unfold field_value, field_signed.
  now rewrite (field_unsigned_ext m m' off nb Hn H).
Qed.

(** A field whose bits are those of an in-range value has that value. *)
Lemma field_value_bits t m off nb v : 1 <= nb <= width t -> in_range t nb v ->
  (is_signed t = true -> 2 <= nb) ->
  (forall j, 0 <= j < nb -> bit_at m (off + j) = Z.testbit v j) ->
  field_value t m off nb = v.
Proof.
  intros Hnb Hr Hs Hb.
  pose proof (field_unsigned_mod v m off nb ltac:(lia) Hb) as Hu.
  assert (Hp : 2 ^ nb = 2 * 2 ^ (nb - 1))
    by (rewrite <- Z.pow_succ_r by lia; f_equal; lia).
  assert (2 ^ 1 <= 2 ^ nb) by (apply Z.pow_le_mono_r; lia).
  assert (Hsig : is_signed t = true -> field_signed m off nb = v).
  { intros Hst. assert (Hr' : - 2 ^ (nb - 1) <= v < 2 ^ (nb - 1))
      by (unfold in_range in Hr; rewrite Hst in Hr; destruct t; try discriminate; auto).
    unfold field_signed. rewrite Hu.
    assert (0 < 2 ^ (nb - 1)) by (apply Z.pow_pos_nonneg; lia).
    destruct (Z.ltb_spec v 0).
    - rewrite <- (Z.mod_unique v (2 ^ nb) (-1) (v + 2 ^ nb)) by lia.
      replace (_ <? _) with false by lia. lia.
    - rewrite Z.mod_small by lia. replace (_ <? _) with true by lia. lia. }
  destruct (is_signed t) eqn:Est.
  - unfold field_value. rewrite Est. replace (nb =? 1) with false by (specialize (Hs eq_refl); lia).
    rewrite Hsig by auto. destruct t; try reflexivity; discriminate.
  - assert (0 <= v < 2 ^ nb) by (unfold in_range in Hr; destruct t; simpl in *; try discriminate; lia).
    rewrite Z.mod_small in Hu by lia.
    unfold field_value. rewrite Est, Hu. destruct t; try reflexivity.
    destruct Hr as [-> | ->]; reflexivity.
Qed.

Theorem write_read b e t v m off nb :
  bytes_ok m -> field_inside m off nb -> layout_ok off nb -> 1 <= nb <= width t ->
  in_range t nb v -> (is_signed t = true -> 2 <= nb) ->
  exists m', write_bytes b e t v m off nb = Ret m' /\
    read_bytes b e t m' off nb = Ret v.
Proof.
  intros Hm Hi HL Hnb Hr Hs. pose proof (width_cases t).
  destruct (write_bits b e t v m off nb) as (m' & Hw & Hok & Hl & Hb); auto; try lia.
  exists m'. split; auto. rewrite read_field_value; auto.
  - f_equal. apply field_value_bits; auto. intros j Hj. rewrite Hb by (destruct Hi; lia).
    rewrite write_bits_in_range by (auto; destruct Hi; lia).
    replace (_ && _) with true by lia. f_equal; lia.
  - destruct Hi; split; lia.
Qed.

Theorem write_frame b e t v m off nb :
  bytes_ok m -> field_inside m off nb -> layout_ok off nb -> 1 <= nb <= 64 ->
  in_range t nb v \/ is_signed t = true ->
  exists m', write_bytes b e t v m off nb = Ret m' /\ bytes_ok m' /\ len m' = len m /\
    (forall j, 0 <= j < nb -> bit_at m' (off + j) = Z.testbit v j) /\
    (forall i, 0 <= i -> i < off \/ off + nb <= i -> bit_at m' i = bit_at m i).
Proof.
  intros Hm Hi HL Hnb Hr.
  destruct (write_bits b e t v m off nb) as (m' & Hw & Hok & Hl & Hb); auto; try lia.
  exists m'. destruct Hi. repeat split; auto.
  - intros j Hj. rewrite Hb by lia. unfold written_bit.
    replace ((off <=? off + j) && _) with true by lia. f_equal; lia.
  - intros i Hi0 Hout. rewrite Hb by lia.
    destruct Hr as [Hr|Hs].
    + rewrite write_bits_in_range by (auto; lia).
      now replace (_ && _) with false by lia.
    + unfold written_bit. rewrite Hs. replace ((off <=? i) && _) with false by lia.
      simpl. rewrite orb_false_r. now destruct (_ && _).
Qed.

(** Bytes that hold no bit of the field never change. *)
Theorem write_bytes_local b e t v m off nb :
  bytes_ok m -> field_inside m off nb -> layout_ok off nb -> 1 <= nb <= 64 ->
  exists m', write_bytes b e t v m off nb = Ret m' /\ len m' = len m /\
    forall k, 0 <= k -> 8 * k + 8 <= off \/ off + nb <= 8 * k ->
      nth (Z.to_nat k) m' 0 = nth (Z.to_nat k) m 0.
Proof.
  intros Hm Hi HL Hnb.
  destruct (write_bits b e t v m off nb) as (m' & Hw & Hok & Hl & Hb); auto.
  exists m'. repeat split; auto. intros k Hk Hout.
  apply byte_ext; try now apply bytes_ok_nth. intros j Hj.
  rewrite <- !bit_at_div by lia. rewrite Hb by lia. unfold written_bit.
  replace ((off <=? 8 * k + j) && _) with false by lia.
  now replace ((off + nb <=? 8 * k + j) && _) with false by lia.
Qed.

Theorem read_bytes_local b e t m m' off nb :
  bytes_ok m -> bytes_ok m' -> field_inside m off nb -> field_inside m' off nb ->
  layout_ok off nb -> 1 <= nb <= width t ->
  (forall i, off <= i < off + nb -> bit_at m i = bit_at m' i) ->
  exists v, read_bytes b e t m off nb = Ret v /\ read_bytes b e t m' off nb = Ret v.
Proof.
  intros Hm Hm' Hi Hi' HL Hnb H. exists (field_value t m off nb). split.
  - now apply read_field_value.
  - rewrite (field_value_ext t m m') by (try intros; try apply H; lia).
    now apply read_field_value.
Qed.

(** * Host byte order, without any layout condition *)
Lemma load_from_le {A} e m pos n (k : Z -> outcome A) : bytes_ok m ->
  (r <- load_u64 e m pos n ;; k (from_le e r)) =
  (if n <=? 8 then l <- mem_read m pos n ;; k (le_val (l ++ zeros (8 - n))) else UB).
Proof.
  intros Hm. unfold load_u64. destruct (Z.leb_spec n 8); auto.
  rewrite obind_assoc. unfold mem_read.
  destruct ((0 <=? pos) && (0 <=? n) && (pos + n <=? len m)) eqn:E; auto.
  simpl. rewrite from_le_of_mem; auto.
  - apply bytes_ok_app. split; auto using bytes_ok_zeros, bytes_ok_firstn, bytes_ok_skipn.
  - rewrite app_length, firstn_length, skipn_length. unfold zeros.
    rewrite repeat_length. unfold len in *. lia.
Qed.

Theorem read_bytes_host b t m off nb : bytes_ok m ->
  read_bytes b LE t m off nb = read_bytes b BE t m off nb.
Proof.
  intros Hm.
  assert (H : forall t, read_bytes_int b LE t m off nb = read_bytes_int b BE t m off nb).
  { intros t0. unfold read_bytes_int. destruct (nb =? 1); auto.
    rewrite (load_from_le LE m _ _ (fun r0 =>
      r <- (if num_bytes off nb * 8 - off mod 8 <? nb then
            temp <- mem_get m (off / 8 + (off / 8 + num_bytes off nb)) ;;
            Ret (Z.lor (Z.shiftr r0 (off mod 8)) (u64 (Z.shiftl temp ((num_bytes off nb * 8 - off mod 8) mod (num_bytes off nb * 8)))))
          else Ret (Z.shiftr r0 (off mod 8))) ;; extend_sign b t0 (masked r nb) nb)) by auto.
    rewrite (load_from_le BE m _ _ (fun r0 =>
      r <- (if num_bytes off nb * 8 - off mod 8 <? nb then
            temp <- mem_get m (off / 8 + (off / 8 + num_bytes off nb)) ;;
            Ret (Z.lor (Z.shiftr r0 (off mod 8)) (u64 (Z.shiftl temp ((num_bytes off nb * 8 - off mod 8) mod (num_bytes off nb * 8)))))
          else Ret (Z.shiftr r0 (off mod 8))) ;; extend_sign b t0 (masked r nb) nb)) by auto.
    reflexivity. }
  destruct t; simpl; rewrite ?H; auto.
Qed.

Lemma store_to_le e m pos v n :
  store_u64 e m pos (to_le e v) n =
  (if n <=? 8 then mem_write m pos (firstn (Z.to_nat n) (le_bytes 8 v)) else UB).
Proof. unfold store_u64. now rewrite to_mem_to_le. Qed.

Theorem write_bytes_host b t v m off nb : bytes_ok m ->
  write_bytes b LE t v m off nb = write_bytes b BE t v m off nb.
Proof.
  intros Hm. unfold write_bytes.
  destruct (match b with Debug => 64 <? nb | Release => false end); auto.
  destruct (negb _); auto. cbv zeta.
  set (vts := if is_signed t then _ else _). set (vm := masked (2 ^ 64 - 1) nb).
  set (n := num_bytes off nb).
  set (F := fun (e : endian) (x : Z) =>
    data <- store_u64 e m (off / 8)
              (to_le e (Z.lor (Z.land x (not64 (u64 (Z.shiftl vm (off mod 8)))))
                  (u64 (Z.shiftl vts (off mod 8))))) n ;;
    (if n * 8 - off mod 8 <? nb then
      if negb (n <? len data) then Panic else
      old <- mem_get data n ;;
      mem_write data n [Z.lor (Z.land old (u8 (not64 (Z.shiftr vm ((n * 8 - off mod 8) mod (n * 8))))))
         (u8 (Z.shiftr vts ((n * 8 - off mod 8) mod (n * 8))))]
     else Ret data)).
  transitivity (r <- load_u64 LE m (off / 8) n ;; F LE (from_le LE r)); [reflexivity|].
  transitivity (r <- load_u64 BE m (off / 8) n ;; F BE (from_le BE r)); [|reflexivity].
  rewrite !load_from_le by auto. destruct (n <=? 8) eqn:En; auto.
  destruct (mem_read m (off / 8) n); auto. simpl. unfold F.
  rewrite !store_to_le. reflexivity.
Qed.

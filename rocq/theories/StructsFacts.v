(** Proofs about structs. *)
From Verif Require Import Base BaseFacts Codec CodecSpec CodecFacts Structs StructsSpec.

Lemma upd_length i v r : length (upd i v r) = length r.
Proof. revert i; induction r; intros [|i]; simpl; auto. Qed.

Lemma nth_upd i j v r d : (i < length r)%nat ->
  nth j (upd i v r) d = if Nat.eqb i j then v else nth j r d.
Proof.
  revert i j; induction r; intros i j H; [simpl in H; lia|].
  destruct i, j; simpl; auto. apply IHr. simpl in H; lia.
Qed.

Lemma field_nth_In s i : (i < length (s_fields s))%nat -> In (field_nth s i) (s_fields s).
Proof. apply nth_In. Qed.

Lemma wf_nth s i : wf_struct s -> (i < length (s_fields s))%nat ->
  wf_field (s_size s) (field_nth s i).
Proof.
  intros (_ & H & _) Hi. rewrite Forall_forall in H. apply H. now apply field_nth_In.
Qed.

Lemma field_inside_wf s f m : wf_field (s_size s) f -> s_size s <= len m ->
  field_inside m (f_off f) (f_bits f).
Proof. intros (Ho & _ & Hi & _) Hl. split; lia. Qed.

Lemma get_field_ok b e s f m : bytes_ok m -> wf_field (s_size s) f -> s_size s <= len m ->
  get_field b e f m = Ret (field_value (f_prim f) m (f_off f) (f_bits f)).
Proof.
  intros Hm Hf Hl. unfold get_field. apply read_field_value; auto.
  - now apply (field_inside_wf s).
  - now destruct Hf as (? & ? & ? & ? & ?).
  - now destruct Hf as (? & ? & ? & ? & ?).
Qed.

(** One setter call, exactly. *)
Lemma set_field_bits b e s f v m : bytes_ok m -> wf_field (s_size s) f -> s_size s <= len m ->
  in_range (f_prim f) (f_bits f) v ->
  exists m', set_field b e s f v m = Ret m' /\ bytes_ok m' /\ len m' = len m /\
    (forall i, 0 <= i -> bit_at m' i =
      if (f_off f <=? i) && (i <? f_off f + f_bits f)
      then Z.testbit v (i - f_off f) else bit_at m i) /\
    skipn (Z.to_nat (s_size s)) m' = skipn (Z.to_nat (s_size s)) m.
Proof.
  intros Hm Hf Hl Hv. pose proof Hf as (Ho & Hb & Hi & HL & Hs).
  pose proof (width_cases (f_prim f)).
  unfold set_field. replace (s_size s <=? len m) with true by lia.
  assert (H0 : 0 <= s_size s) by lia.
  set (head := firstn (Z.to_nat (s_size s)) m).
  set (tail := skipn (Z.to_nat (s_size s)) m).
  assert (Hlh : len head = s_size s) by (apply len_firstn; lia).
  assert (Hmt : m = head ++ tail) by (symmetry; apply firstn_skipn).
  destruct (write_bits b e (f_prim f) v head (f_off f) (f_bits f))
    as (h' & Hw & Hok & Hlen & Hbits); try lia; auto.
  { now apply bytes_ok_firstn. }
  { split; lia. }
  rewrite Hw. simpl obind. eexists; split; [reflexivity|]. split; [|split; [|split]].
  - apply bytes_ok_app. split; auto. now apply bytes_ok_skipn.
  - rewrite Hmt. rewrite !len_app. lia.
  - intros i Hi0. rewrite bit_at_app by lia. rewrite Hlen, Hlh.
    destruct (Z.ltb_spec i (8 * s_size s)).
    + rewrite Hbits by lia. rewrite write_bits_in_range by (auto; lia).
      destruct (_ && _); auto. unfold head. apply bit_at_firstn. lia.
    + replace (_ && _) with false by lia.
      rewrite Hmt, bit_at_app by lia. rewrite Hlh.
      now replace (i <? _) with false by lia.
  - rewrite skipn_app. rewrite skipn_all2 by (unfold len in *; lia).
    replace (Z.to_nat (s_size s) - length h')%nat with 0%nat by (unfold len in *; lia).
    reflexivity.
Qed.

Lemma decode_length s m : length (decode s m) = length (s_fields s).
Proof. apply map_length. Qed.

Lemma decode_nth s m i : (i < length (s_fields s))%nat ->
  nth i (decode s m) 0 =
  field_value (f_prim (field_nth s i)) m (f_off (field_nth s i)) (f_bits (field_nth s i)).
Proof.
  intros Hi. unfold decode, field_nth.
  set (g := fun f => field_value (f_prim f) m (f_off f) (f_bits f)).
  rewrite (nth_indep (map g (s_fields s)) 0 (g default_field)) by (rewrite map_length; auto).
  apply (map_nth g).
Qed.

(** Setting field [i] updates the record at [i] only. *)
Lemma set_field_decode b e s i v m : wf_struct s -> (i < length (s_fields s))%nat ->
  bytes_ok m -> s_size s <= len m ->
  in_range (f_prim (field_nth s i)) (f_bits (field_nth s i)) v ->
  exists m', set_field b e s (field_nth s i) v m = Ret m' /\ bytes_ok m' /\ len m' = len m /\
    decode s m' = upd i v (decode s m) /\
    skipn (Z.to_nat (s_size s)) m' = skipn (Z.to_nat (s_size s)) m /\
    (forall k, 0 <= k ->
       (forall j, (j < length (s_fields s))%nat ->
          k < f_off (field_nth s j) \/ f_off (field_nth s j) + f_bits (field_nth s j) <= k) ->
       bit_at m' k = bit_at m k).
Proof.
  intros Hwf Hi Hm Hl Hv. pose proof (wf_nth s i Hwf Hi) as Hf.
  destruct (set_field_bits b e s (field_nth s i) v m) as (m' & Hset & Hok & Hlen & Hbits & Htl); auto.
  exists m'. split; auto. split; auto. split; auto. split; [|split; auto].
  - apply nth_ext with (d := 0) (d' := 0).
    { now rewrite upd_length, !decode_length. }
    intros j Hj. rewrite decode_length in Hj.
    rewrite nth_upd by (rewrite decode_length; auto).
    pose proof (wf_nth s j Hwf Hj) as Hfj.
    rewrite !decode_nth by auto.
    destruct Hf as (Ho & Hb & Hin & HL & Hs).
    destruct Hfj as (Hoj & Hbj & Hinj & HLj & Hsj).
    destruct (Nat.eqb_spec i j) as [->|Hne].
    + apply field_value_bits; auto. intros k Hk. rewrite Hbits by lia.
      replace (_ && _) with true by lia. f_equal; lia.
    + apply field_value_ext; [lia|]. intros k Hk. rewrite Hbits by lia.
      destruct Hwf as (_ & _ & Hd). specialize (Hd i j Hi Hj Hne). unfold disjoint in Hd.
      now replace (_ && _) with false by lia.
  - intros k Hk Hout. rewrite Hbits by lia. specialize (Hout i Hi).
    now replace (_ && _) with false by lia.
Qed.

Theorem run_sets_decode b e s ops m : wf_struct s -> bytes_ok m -> s_size s <= len m ->
  sets_ok s ops ->
  exists m', run_sets b e s ops m = Ret m' /\ bytes_ok m' /\ len m' = len m /\
    decode s m' = apply_sets ops (decode s m) /\
    skipn (Z.to_nat (s_size s)) m' = skipn (Z.to_nat (s_size s)) m /\
    (forall k, 0 <= k ->
       (forall j, (j < length (s_fields s))%nat ->
          k < f_off (field_nth s j) \/ f_off (field_nth s j) + f_bits (field_nth s j) <= k) ->
       bit_at m' k = bit_at m k).
Proof.
  intros Hwf Hm Hl Hops. revert m Hm Hl.
  induction Hops as [|[i v] ops [Hi Hv] Hops IH]; intros m Hm Hl; simpl in *.
  - exists m. repeat split; auto.
  - destruct (set_field_decode b e s i v m) as (m1 & Hset & Hok & Hlen & Hdec & Htl & Hfr); auto.
    rewrite Hset. simpl obind.
    destruct (IH m1 Hok ltac:(lia)) as (m2 & Hrun & Hok2 & Hlen2 & Hdec2 & Htl2 & Hfr2).
    exists m2. split; auto. split; auto. split; [lia|]. split; [|split; [congruence|]].
    + rewrite Hdec2, Hdec. reflexivity.
    + intros k Hk Hout. rewrite Hfr2 by auto. now apply Hfr.
Qed.

Lemma get_fields_ok b e s fs m : bytes_ok m -> s_size s <= len m ->
  Forall (wf_field (s_size s)) fs ->
  get_fields b e fs m = Ret (map (fun f => field_value (f_prim f) m (f_off f) (f_bits f)) fs).
Proof.
  intros Hm Hl. induction 1 as [|f fs Hf Hfs IH]; simpl; auto.
  rewrite (get_field_ok b e s) by auto. simpl. rewrite IH. reflexivity.
Qed.

Theorem get_all_decode b e s m : wf_struct s -> bytes_ok m -> s_size s <= len m ->
  get_all b e s m = Ret (decode s m).
Proof. intros (_ & Hf & _) Hm Hl. now apply (get_fields_ok b e s). Qed.

Theorem get_field_decode b e s i m : wf_struct s -> (i < length (s_fields s))%nat ->
  bytes_ok m -> s_size s <= len m ->
  get_field b e (field_nth s i) m = Ret (nth i (decode s m) 0).
Proof.
  intros Hwf Hi Hm Hl. rewrite decode_nth by auto.
  apply (get_field_ok b e s); auto. now apply wf_nth.
Qed.

(** Values read from a buffer are in range. *)
Lemma field_value_in_range t m off nb : 1 <= nb -> (is_signed t = true -> 2 <= nb) ->
  in_range t nb (field_value t m off nb).
Proof.
  intros Hnb Hs. pose proof (field_unsigned_range m off nb ltac:(lia)) as Hu.
  assert (Hp : 2 ^ nb = 2 * 2 ^ (nb - 1))
    by (rewrite <- Z.pow_succ_r by lia; f_equal; lia).
  destruct (is_signed t) eqn:Es.
  - specialize (Hs eq_refl).
    assert (- 2 ^ (nb - 1) <= field_signed m off nb < 2 ^ (nb - 1)).
    { unfold field_signed. destruct (Z.ltb_spec (field_unsigned m off nb) (2 ^ (nb - 1))); lia. }
    unfold in_range, field_value. rewrite Es. replace (nb =? 1) with false by lia.
    destruct t; auto; discriminate.
  - unfold in_range, field_value. rewrite Es. destruct t; auto; try discriminate.
    destruct (_ =? 0); auto.
Qed.

(** Equality. *)
Lemma eq_fields_ok b e s fs m1 m2 : bytes_ok m1 -> bytes_ok m2 ->
  s_size s <= len m1 -> s_size s <= len m2 -> Forall (wf_field (s_size s)) fs ->
  exists r, eq_fields b e fs m1 m2 = Ret r /\
    (r = true <-> map (fun f => field_value (f_prim f) m1 (f_off f) (f_bits f)) fs =
                  map (fun f => field_value (f_prim f) m2 (f_off f) (f_bits f)) fs).
Proof.
  intros H1 H2 Hl1 Hl2. induction 1 as [|f fs Hf Hfs IH]; simpl.
  - exists true. tauto.
  - rewrite !(get_field_ok b e s) by auto. simpl.
    destruct (Z.eqb_spec (field_value (f_prim f) m1 (f_off f) (f_bits f))
       (field_value (f_prim f) m2 (f_off f) (f_bits f))) as [E|E].
    + destruct IH as (r & Hr & Hiff). exists r. split; auto. rewrite Hiff. split.
      * intros ->. now rewrite E.
      * intros H. now inversion H.
    + exists false. split; auto. split; [discriminate|]. intros H. inversion H. contradiction.
Qed.

Theorem struct_eq_decode b e s m1 m2 : wf_struct s -> bytes_ok m1 -> bytes_ok m2 ->
  s_size s <= len m1 -> s_size s <= len m2 ->
  exists r, struct_eq b e s m1 m2 = Ret r /\ (r = true <-> decode s m1 = decode s m2).
Proof. intros (_ & Hf & _) **. now apply (eq_fields_ok b e s). Qed.

(** fill_from assigns fields one after the other. *)
Lemma fill_fields_decode b e s other : wf_struct s -> bytes_ok other -> s_size s <= len other ->
  forall done fs m, s_fields s = done ++ fs ->
  bytes_ok m -> s_size s <= len m ->
  exists m', fill_fields b e s fs m other = Ret m' /\ bytes_ok m' /\ len m' = len m /\
    skipn (Z.to_nat (s_size s)) m' = skipn (Z.to_nat (s_size s)) m /\
    (forall j, (j < length (s_fields s))%nat -> nth j (decode s m') 0 =
       if (j <? length done)%nat then nth j (decode s m) 0 else nth j (decode s other) 0).
Proof.
  intros Hwf Ho Hlo done fs. revert done.
  induction fs as [|f fs IH]; intros done m Hsplit Hm Hl; simpl.
  - exists m. split; auto. split; auto. split; auto. split; auto. intros j Hj.
    rewrite app_nil_r in Hsplit. rewrite Hsplit in Hj.
    now apply Nat.ltb_lt in Hj as ->.
  - set (i := length done).
    assert (Hi : (i < length (s_fields s))%nat)
      by (rewrite Hsplit, app_length; unfold i; simpl; lia).
    assert (Hfi : field_nth s i = f).
    { unfold field_nth. rewrite Hsplit, app_nth2 by (unfold i; lia).
      unfold i. now rewrite Nat.sub_diag. }
    pose proof (wf_nth s i Hwf Hi) as Hwfi. rewrite Hfi in Hwfi.
    rewrite (get_field_ok b e s) by auto. simpl obind.
    set (v := field_value (f_prim f) other (f_off f) (f_bits f)).
    destruct (set_field_decode b e s i v m) as (m1 & Hset & Hok & Hlen & Hdec & Htl & _); auto.
    { rewrite Hfi. destruct Hwfi as (? & ? & ? & ? & ?).
      apply field_value_in_range; auto; lia. }
    rewrite Hfi in Hset. rewrite Hset. simpl obind.
    destruct (IH (done ++ [f]) m1) as (m2 & Hfill & Hok2 & Hlen2 & Htl2 & Hnth2); auto; try lia.
    { rewrite Hsplit, <- app_assoc. reflexivity. }
    exists m2. split; auto. split; auto. split; [lia|]. split; [congruence|].
    intros j Hj. rewrite Hnth2 by auto. rewrite app_length. simpl.
    rewrite Hdec, nth_upd by (rewrite decode_length; auto).
    assert (Hv : v = nth i (decode s other) 0) by (rewrite decode_nth, Hfi; auto).
    fold i. clearbody i.
    destruct (Nat.ltb_spec j (i + 1)), (Nat.ltb_spec j i); try lia.
    + now replace (Nat.eqb i j) with false by (symmetry; apply Nat.eqb_neq; lia).
    + assert (j = i) as -> by lia. rewrite Nat.eqb_refl. auto.
Qed.

Theorem fill_from_decode b e s m other : wf_struct s -> bytes_ok m -> bytes_ok other ->
  s_size s <= len m -> s_size s <= len other ->
  exists m', fill_from b e s m other = Ret m' /\ bytes_ok m' /\ len m' = len m /\
    skipn (Z.to_nat (s_size s)) m' = skipn (Z.to_nat (s_size s)) m /\
    decode s m' = decode s other.
Proof.
  intros Hwf Hm Ho Hl Hlo.
  destruct (fill_fields_decode b e s other Hwf Ho Hlo [] (s_fields s) m)
    as (m' & Hf & Hok & Hlen & Htl & Hn); auto.
  exists m'. repeat split; auto.
  apply nth_ext with (d := 0) (d' := 0); [now rewrite !decode_length|].
  intros j Hj. rewrite decode_length in Hj. rewrite Hn by auto. reflexivity.
Qed.

(** The zero buffer. *)
Lemma field_value_zeros t n off nb : 1 <= nb -> 0 <= off -> field_value t (zeros n) off nb = 0.
Proof.
  intros Hnb Ho.
  assert (Hu : field_unsigned (zeros n) off nb = 0).
  { apply Z.bits_inj'. intros j Hj. rewrite field_unsigned_testbit, bit_at_zeros by lia.
    rewrite Z.testbit_0_l. apply andb_false_r. }
  assert (Hs : field_signed (zeros n) off nb = 0).
  { unfold field_signed. rewrite Hu.
    assert (0 < 2 ^ (nb - 1)) by (apply Z.pow_pos_nonneg; lia).
    now replace (0 <? 2 ^ (nb - 1)) with true by lia. }
  unfold field_value. rewrite Hu, Hs. destruct t; simpl; auto; now destruct (nb =? 1).
Qed.

Lemma decode_zeros s n : wf_struct s -> decode s (zeros n) = zero_record s.
Proof.
  intros (_ & Hf & _). unfold decode, zero_record. apply map_ext_in. intros f Hin.
  rewrite Forall_forall in Hf. destruct (Hf f Hin) as (? & ? & _).
  apply field_value_zeros; lia.
Qed.

(** The record only depends on the bytes of the struct. *)
Lemma decode_ext s m m' : wf_struct s ->
  (forall i, 0 <= i < 8 * s_size s -> bit_at m i = bit_at m' i) -> decode s m = decode s m'.
Proof.
  intros (_ & Hf & _) H. unfold decode. apply map_ext_in. intros f Hin.
  rewrite Forall_forall in Hf. destruct (Hf f Hin) as (Ho & Hb & Hi & _).
  apply field_value_ext; [lia|]. intros j Hj. apply H. lia.
Qed.

Lemma decode_firstn s m n : wf_struct s -> s_size s <= n ->
  decode s (firstn (Z.to_nat n) m) = decode s m.
Proof. intros Hwf Hn. apply decode_ext; auto. intros. apply bit_at_firstn. lia. Qed.

(** StructBuf. *)
Theorem sb_roundtrip b e s ops : wf_struct s -> sets_ok s ops ->
  exists data bytes, run_sets b e s ops (sb_get (sb_new s)) = Ret data /\
    get_all b e s (sb_get data) = Ret (apply_sets ops (zero_record s)) /\
    sb_as_bytes s data = Ret bytes /\
    len data = s_size s + 8 /\ skipn (Z.to_nat (s_size s)) data = zeros 8 /\
    len (sl_bytes bytes) = s_size s /\
    get_all b e s (sl_bytes bytes) = Ret (apply_sets ops (zero_record s)).
Proof.
  intros Hwf Hops. pose proof Hwf as (Hpos & _).
  destruct (run_sets_decode b e s ops (sb_new s)) as (d & Hrun & Hok & Hlen & Hdec & Htail & _); auto.
  { apply bytes_ok_zeros. }
  { unfold sb_new, PADDING_SIZE. rewrite len_zeros by lia. lia. }
  unfold sb_new, PADDING_SIZE in Hlen. rewrite len_zeros in Hlen by lia.
  unfold sb_new in Hdec. rewrite decode_zeros in Hdec by auto.
  exists d. eexists. split; [exact Hrun|].
  unfold sb_as_bytes. rewrite slice_range_ok by (simpl; lia).
  split; [|split; [reflexivity|]]; unfold sl_bytes; simpl sl_len; simpl sl_mem.
  - unfold sb_get. rewrite get_all_decode by (auto; lia). now rewrite Hdec.
  - split; auto. split.
    { rewrite Htail. unfold sb_new, PADDING_SIZE, zeros.
      replace (Z.to_nat (s_size s + 8)) with (Z.to_nat (s_size s) + 8)%nat by lia.
      rewrite repeat_app, skipn_app, repeat_length, Nat.sub_diag.
      rewrite skipn_all2 by (rewrite repeat_length; lia). reflexivity. }
    rewrite Z.sub_0_r. simpl skipn. rewrite len_firstn by lia. split; auto.
    rewrite get_all_decode; auto.
    + rewrite decode_firstn by (auto; lia). now rewrite Hdec.
    + now apply bytes_ok_firstn.
    + rewrite len_firstn; lia.
Qed.

Lemma apply_sets_nth ops : forall r i, (forall o, In o ops -> (fst o < length r)%nat) ->
  nth i (apply_sets ops r) 0 =
  match last_set i ops with Some v => v | None => nth i r 0 end.
Proof.
  unfold apply_sets. induction ops as [|[j v] ops IH]; intros r i H; simpl; auto.
  rewrite IH.
  - destruct (last_set i ops); auto. rewrite nth_upd by (apply (H (j, v)); now left).
    now destruct (Nat.eqb j i).
  - intros o Ho. rewrite upd_length. apply H. now right.
Qed.

Theorem sets_then_get b e s ops m : wf_struct s -> bytes_ok m -> s_size s <= len m ->
  sets_ok s ops ->
  exists m', run_sets b e s ops m = Ret m' /\ len m' = len m /\
    skipn (Z.to_nat (s_size s)) m' = skipn (Z.to_nat (s_size s)) m /\
    forall i, (i < length (s_fields s))%nat ->
      get_field b e (field_nth s i) m' =
      match last_set i ops with
      | Some v => Ret v
      | None => get_field b e (field_nth s i) m
      end.
Proof.
  intros Hwf Hm Hl Hops.
  destruct (run_sets_decode b e s ops m) as (m' & Hrun & Hok & Hlen & Hdec & Htail & _); auto.
  exists m'. split; auto. split; auto. split; auto. intros i Hi.
  rewrite !get_field_decode by (auto; lia). rewrite Hdec, apply_sets_nth.
  - destruct (last_set i ops); auto.
  - intros o Ho. rewrite decode_length. unfold sets_ok in Hops. rewrite Forall_forall in Hops.
    now apply Hops.
Qed.

Theorem fill_from_eq b e s m other : wf_struct s -> bytes_ok m -> bytes_ok other ->
  s_size s <= len m -> s_size s <= len other ->
  exists m', fill_from b e s m other = Ret m' /\ len m' = len m /\
    skipn (Z.to_nat (s_size s)) m' = skipn (Z.to_nat (s_size s)) m /\
    struct_eq b e s m' other = Ret true /\
    forall i, (i < length (s_fields s))%nat ->
      get_field b e (field_nth s i) m' = get_field b e (field_nth s i) other.
Proof.
  intros Hwf Hm Ho Hl Hlo.
  destruct (fill_from_decode b e s m other) as (m' & Hf & Hok & Hlen & Htail & Hdec); auto.
  exists m'. split; auto. split; auto. split; auto. split.
  - destruct (struct_eq_decode b e s m' other) as (r & Hr & Hiff); auto; try lia.
    rewrite Hr. f_equal. now apply Hiff.
  - intros i Hi. rewrite !get_field_decode by (auto; lia). now rewrite Hdec.
Qed.

Theorem struct_eq_iff b e s m1 m2 : wf_struct s -> bytes_ok m1 -> bytes_ok m2 ->
  s_size s <= len m1 -> s_size s <= len m2 ->
  exists r, struct_eq b e s m1 m2 = Ret r /\
    (r = true <-> forall i, (i < length (s_fields s))%nat ->
       get_field b e (field_nth s i) m1 = get_field b e (field_nth s i) m2).
Proof.
  intros Hwf H1 H2 Hl1 Hl2. destruct (struct_eq_decode b e s m1 m2) as (r & Hr & Hiff); auto.
  exists r. split; auto. rewrite Hiff. split.
  - intros Hd i Hi. rewrite !get_field_decode by auto. now rewrite Hd.
  - intros Hd. apply (nth_ext _ _ 0 0); rewrite decode_length; [now rewrite decode_length|].
    intros i Hi. specialize (Hd i Hi). rewrite !get_field_decode in Hd by auto. now inversion Hd.
Qed.

Theorem enum_set_get b e s codes ops m i : wf_struct s -> bytes_ok m -> s_size s <= len m ->
  sets_ok s ops -> (i < length (s_fields s))%nat ->
  forall v, last_set i ops = Some v -> In v codes ->
  exists m', run_sets b e s ops m = Ret m' /\ get_enum b e codes (field_nth s i) m' = Ret v.
Proof.
  intros Hwf Hm Hl Hops Hi v Hv Hin.
  destruct (sets_then_get b e s ops m) as (m' & Hrun & _ & _ & Hget); auto.
  exists m'. split; auto. unfold get_enum. rewrite Hget, Hv by auto. simpl.
  replace (existsb (Z.eqb v) codes) with true; auto. symmetry. apply existsb_exists.
  exists v. split; auto. lia.
Qed.

(** Exactly the bytes whose field value is no declared discriminant are bad. *)
Theorem enum_get_exact b e s codes m i : wf_struct s -> bytes_ok m -> s_size s <= len m ->
  (i < length (s_fields s))%nat ->
  get_enum b e codes (field_nth s i) m =
    if in_dec Z.eq_dec (nth i (decode s m) 0) codes then Ret (nth i (decode s m) 0) else UB.
Proof.
  intros Hwf Hm Hl Hi. unfold get_enum. rewrite get_field_decode by auto. simpl.
  set (v := nth i (decode s m) 0). destruct (in_dec Z.eq_dec v codes) as [H|H].
  - replace (existsb (Z.eqb v) codes) with true; auto. symmetry. apply existsb_exists.
    exists v. split; auto. lia.
  - replace (existsb (Z.eqb v) codes) with false; auto. symmetry.
    destruct (existsb (Z.eqb v) codes) eqn:E; auto. apply existsb_exists in E.
    destruct E as (x & Hx & Hv). apply Z.eqb_eq in Hv. subst x. contradiction.
Qed.

Theorem enum_get_value b e s codes m i : wf_struct s -> bytes_ok m -> s_size s <= len m ->
  (i < length (s_fields s))%nat ->
  let v := field_value (f_prim (field_nth s i)) m (f_off (field_nth s i)) (f_bits (field_nth s i)) in
  get_enum b e codes (field_nth s i) m = if in_dec Z.eq_dec v codes then Ret v else UB.
Proof.
  intros Hwf Hm Hl Hi v. rewrite (enum_get_exact b e s) by auto.
  rewrite decode_nth by auto. reflexivity.
Qed.

Theorem sb_new_zero s : wf_struct s ->
  sb_new s = repeat 0 (Z.to_nat (s_size s + 8)) /\
  forall b e i, (i < length (s_fields s))%nat -> get_field b e (field_nth s i) (sb_new s) = Ret 0.
Proof.
  intros Hwf. pose proof Hwf as (Hs & _). split; [reflexivity|]. intros b e i Hi.
  unfold sb_new, PADDING_SIZE.
  rewrite get_field_decode by (auto using bytes_ok_zeros; rewrite len_zeros; lia).
  rewrite decode_nth by auto. destruct (wf_nth s i Hwf Hi) as (Ho & Hb & _).
  rewrite field_value_zeros by lia. reflexivity.
Qed.

Theorem one_bit_signed b e t m off : is_signed t = true -> bytes_ok m -> field_inside m off 1 ->
  in_range t 1 (-1) /\
  exists m', write_bytes b e t (-1) m off 1 = Ret m' /\ read_bytes b e t m' off 1 = Ret 1.
Proof.
  intros Hs Hm Hin. split. { destruct t; simpl in *; try discriminate; lia. }
  pose proof (width_cases t).
  destruct (write_frame b e t (-1) m off 1) as (m' & Hw & Hok & Hlen & Hb & _); auto.
  { unfold layout_ok. lia. } { lia. }
  exists m'. split; auto.
  assert (Hin' : field_inside m' off 1) by (unfold field_inside in *; lia).
  rewrite (read_signed_1 b e t m' off) by auto. f_equal.
  apply Z.bits_inj'. intros j Hj. rewrite field_unsigned_testbit by lia.
  destruct (Z.eqb_spec j 0) as [->|Hne].
  - rewrite Hb by lia. reflexivity.
  - replace (j <? 1) with false by lia. simpl. symmetry. apply (Z.bits_above_log2 1 j); simpl; lia.
Qed.

Theorem signed_roundtrip b e t m off nb v : is_signed t = true -> bytes_ok m ->
  field_inside m off nb -> layout_ok off nb -> 1 <= nb <= width t -> in_range t nb v ->
  (nb = 1 -> v = 0) ->
  exists m', write_bytes b e t v m off nb = Ret m' /\ read_bytes b e t m' off nb = Ret v.
Proof.
  intros Hs Hm Hin HL Hnb Hr H1. destruct (Z.eqb_spec nb 1) as [->|Hne].
  - rewrite (H1 eq_refl). pose proof (width_cases t).
    destruct (write_frame b e t 0 m off 1) as (m' & Hw & Hok & Hlen & Hb & _); auto; [lia|].
    exists m'. split; auto.
    assert (Hin' : field_inside m' off 1) by (unfold field_inside in *; lia).
    rewrite (read_signed_1 b e t m' off) by auto. f_equal.
    apply Z.bits_inj'. intros j Hj. rewrite field_unsigned_testbit by lia.
    rewrite Z.testbit_0_l. destruct (Z.ltb_spec j 1); auto. rewrite Hb by lia. apply Z.testbit_0_l.
  - apply write_read; auto. lia.
Qed.

(** A decision procedure for [wf_struct], used for concrete structs. *)
Definition wf_field_b (size : Z) (f : field) : bool :=
  (0 <=? f_off f) && (1 <=? f_bits f) && (f_bits f <=? width (f_prim f)) &&
  (f_off f + f_bits f <=? 8 * size) &&
  ((f_off f <? 8) || (f_off f mod 8 + f_bits f <=? 64)) &&
  (negb (is_signed (f_prim f)) || (2 <=? f_bits f)).
Definition disjoint_b (f g : field) : bool :=
  (f_off f + f_bits f <=? f_off g) || (f_off g + f_bits g <=? f_off f).
Definition wf_struct_b (s : sdesc) : bool :=
  (0 <? s_size s) && forallb (wf_field_b (s_size s)) (s_fields s) &&
  forallb (fun i => forallb (fun j => Nat.eqb i j || disjoint_b (field_nth s i) (field_nth s j))
    (seq 0 (length (s_fields s)))) (seq 0 (length (s_fields s))).

Lemma wf_struct_dec s : wf_struct_b s = true -> wf_struct s.
Proof.
  unfold wf_struct_b. rewrite !andb_true_iff, !forallb_forall. intros [[H1 H2] H3].
  split; [lia|]. split.
  - apply Forall_forall. intros f Hf. specialize (H2 f Hf). unfold wf_field_b in H2.
    unfold wf_field, layout_ok. destruct (is_signed (f_prim f)); simpl in H2; lia.
  - intros i j Hi Hj Hij. specialize (H3 i). rewrite forallb_forall in H3.
    rewrite in_seq in H3. specialize (H3 ltac:(lia) j). rewrite in_seq in H3.
    specialize (H3 ltac:(lia)). unfold disjoint_b in H3. unfold disjoint. lia.
Qed.

(** * The index type *)
Lemma set_then_get_index b e size bits v m :
  wf_struct (index_struct size bits) -> bytes_ok m -> size <= len m -> 0 <= v < 2 ^ bits ->
  run_sets b e (index_struct size bits) [(0%nat, v)] m = set_index b e size bits v m /\
  exists m', set_index b e size bits v m = Ret m' /\ get_index b e bits m' = Ret v /\ len m' = len m /\
    skipn (Z.to_nat size) m' = skipn (Z.to_nat size) m.
Proof.
  intros W B L V.
  assert (S : sets_ok (index_struct size bits) [(0%nat, v)]).
  { constructor; [|constructor]. cbn. split; [lia|]. unfold in_range. cbn. lia. }
  destruct (sets_then_get b e _ _ m W B L S) as (m' & R & Lm & K & G). specialize (G O). cbn in G.
  assert (E : run_sets b e (index_struct size bits) [(0%nat, v)] m = set_index b e size bits v m).
  { cbn [run_sets]. unfold set_index, field_nth. change (nth 0 (s_fields (index_struct size bits)) default_field) with (mkField U64 0 bits).
    destruct (set_field b e (index_struct size bits) (mkField U64 0 bits) v m); reflexivity. }
  split; [exact E|]. exists m'. rewrite <- E. split; [exact R|]. split; [apply G; lia|]. split; [exact Lm|exact K].
Qed.

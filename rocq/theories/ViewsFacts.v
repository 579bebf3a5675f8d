(** Proofs about array views and vectors. *)
From Verif Require Import Base BaseFacts Codec CodecSpec CodecFacts Structs StructsSpec
  StructsFacts Views ViewsSpec.

(** * Records *)
Lemma records_length s bytes : length (records s bytes) = Z.to_nat (len bytes / s_size s).
Proof. unfold records. now rewrite map_length, seq_length. Qed.

Lemma records_nth s bytes i d : (i < Z.to_nat (len bytes / s_size s))%nat ->
  nth i (records s bytes) d = decode s (chunk (s_size s) bytes i).
Proof.
  intros Hi. unfold records. set (g := fun i => decode s (chunk (s_size s) bytes i)).
  rewrite (nth_indep _ d (g 0%nat)) by (rewrite map_length, seq_length; auto).
  rewrite map_nth, seq_nth by auto. reflexivity.
Qed.

Lemma chunk_bits n bytes i j : 0 <= j < 8 * n ->
  bit_at (chunk n bytes i) j = bit_at bytes (8 * (Z.of_nat i * n) + j).
Proof.
  intros Hj. unfold chunk. rewrite bit_at_firstn by lia.
  replace (i * Z.to_nat n)%nat with (Z.to_nat (Z.of_nat i * n)) by lia.
  rewrite bit_at_skipn by lia. reflexivity.
Qed.

Lemma len_chunk n bytes i : 0 <= n -> (Z.of_nat i + 1) * n <= len bytes -> len (chunk n bytes i) = n.
Proof.
  intros Hn Hi. unfold chunk. apply len_firstn.
  replace (i * Z.to_nat n)%nat with (Z.to_nat (Z.of_nat i * n)) by lia.
  rewrite len_skipn by lia. lia.
Qed.

Lemma bytes_ok_chunk n bytes i : bytes_ok bytes -> bytes_ok (chunk n bytes i).
Proof. intros. unfold chunk. auto using bytes_ok_firstn, bytes_ok_skipn. Qed.

Lemma decode_skipn s m bytes i : wf_struct s ->
  (forall j, 0 <= j < 8 * s_size s -> bit_at m j = bit_at bytes (8 * (Z.of_nat i * s_size s) + j)) ->
  decode s m = decode s (chunk (s_size s) bytes i).
Proof.
  intros Hwf H. apply decode_ext; auto. intros j Hj. rewrite H by lia.
  now rewrite chunk_bits by lia.
Qed.

Lemma div_le_mul n a k : 0 < n -> 0 <= k -> (k <= a / n <-> k * n <= a).
Proof.
  intros Hn Hk. split; intros H.
  - pose proof (Z.mul_div_le a n Hn). nia.
  - apply Z.div_le_lower_bound; lia.
Qed.

Lemma div_lt_mul n a k : 0 < n -> 0 <= k -> (k < a / n <-> (k + 1) * n <= a).
Proof. intros. rewrite <- div_le_mul by lia. lia. Qed.

(** * ArrayView::at *)
Lemma data_index_ok b s i : 0 <= i * s_size s < usize_limit -> data_index b s i = Ret (i * s_size s).
Proof. intros. unfold data_index, umul. now apply wrap_ok. Qed.

Lemma av_at_ok b s v i : 0 < s_size s -> slice_ok v -> 0 <= i < av_len s v ->
  av_at b s v i = Ret (skipn (Z.to_nat (i * s_size s)) (sl_mem v)) /\
  (i + 1) * s_size s <= sl_len v.
Proof.
  intros Hs (Hl & Hmax & Hb) Hi. unfold av_len in Hi. unfold isize_max in Hmax.
  assert (Hin : (i + 1) * s_size s <= sl_len v) by (apply div_lt_mul; lia).
  split; auto. unfold av_at, uadd.
  assert (Hnn : 0 <= i * s_size s) by (apply Z.mul_nonneg_nonneg; lia).
  rewrite data_index_ok by (unfold usize_limit; lia). simpl obind.
  rewrite wrap_ok by (unfold usize_limit; lia). simpl obind.
  replace (_ <=? _) with true by lia. unfold slice_from.
  rewrite slice_range_ok by lia. reflexivity.
Qed.

Theorem av_at_spec b e s v i : wf_struct s -> slice_ok v -> 0 <= i < av_len s v ->
  exists m, av_at b s v i = Ret m /\ bytes_ok m /\ s_size s <= len m /\
    firstn (Z.to_nat (s_size s)) m = chunk (s_size s) (sl_bytes v) (Z.to_nat i) /\
    get_all b e s m = Ret (nth (Z.to_nat i) (records s (sl_bytes v)) []).
Proof.
  intros Hwf Hv Hi. pose proof Hwf as (Hpos & _).
  destruct (av_at_ok b s v i) as (Hat & Hin); auto. destruct Hv as (Hl & Hmax & Hb).
  assert (Hnn : 0 <= i * s_size s) by (apply Z.mul_nonneg_nonneg; lia).
  eexists; split; [exact Hat|].
  assert (Hlen : s_size s <= len (skipn (Z.to_nat (i * s_size s)) (sl_mem v)))
    by (rewrite len_skipn; lia).
  split; [now apply bytes_ok_skipn|]. split; auto.
  assert (Hsl : len (sl_bytes v) = sl_len v) by (apply len_firstn; lia).
  split.
  - unfold chunk, sl_bytes.
    replace (Z.to_nat i * Z.to_nat (s_size s))%nat with (Z.to_nat (i * s_size s)) by lia.
    rewrite skipn_firstn_comm, firstn_firstn. f_equal. lia.
  - rewrite get_all_decode by (auto using bytes_ok_skipn). f_equal.
    rewrite records_nth by (rewrite Hsl; unfold av_len in Hi; lia).
    apply decode_skipn; auto. intros j Hj. rewrite bit_at_skipn by lia.
    unfold sl_bytes. rewrite Z2Nat.id by lia. now rewrite bit_at_firstn by lia.
Qed.

Theorem av_at_panics_debug s v i : 0 < s_size s -> slice_ok v -> is_usize i ->
  av_len s v <= i -> av_at Debug s v i = Panic.
Proof.
  intros Hs (Hl & Hmax & Hb) Hi Hout. unfold av_at, data_index, umul, uadd, av_len in *.
  assert (Hgt : sl_len v < (i + 1) * s_size s).
  { destruct (Z.ltb_spec (sl_len v) ((i + 1) * s_size s)); auto.
    unfold is_usize in Hi. apply div_lt_mul in H; lia. }
  assert (Hnn : 0 <= i * s_size s) by (unfold is_usize in Hi; apply Z.mul_nonneg_nonneg; lia).
  destruct (Z.ltb_spec (i * s_size s) usize_limit) as [H1|H1].
  - rewrite wrap_ok by lia. simpl.
    destruct (Z.ltb_spec (i * s_size s + s_size s) usize_limit) as [H2|H2].
    + rewrite wrap_ok by lia. simpl. now replace (_ <=? _) with false by lia.
    + rewrite wrap_debug_panic by lia. reflexivity.
  - rewrite wrap_debug_panic by lia. reflexivity.
Qed.

(** In every build the handle has [s_size s] bytes of the slice behind it. *)
Theorem av_at_safe b s v i : 0 < s_size s <= isize_max -> slice_ok v -> is_usize i ->
  av_at b s v i = Panic \/
  exists p, 0 <= p /\ p + s_size s <= sl_len v /\
    av_at b s v i = Ret (skipn (Z.to_nat p) (sl_mem v)).
Proof.
  intros Hs (Hl & Hmax & Hb) Hi. unfold av_at, data_index, umul, uadd.
  destruct (wrap_cases b (i * s_size s)) as [->|(p & -> & Hp)]; auto. simpl.
  destruct (Z.ltb_spec (p + s_size s) usize_limit) as [H2|H2].
  - rewrite wrap_ok by lia. simpl. destruct (Z.leb_spec (p + s_size s) (sl_len v)); auto.
    right. exists p. unfold slice_from. rewrite slice_range_ok by lia. repeat split; auto; lia.
  - left. destruct b.
    + rewrite wrap_debug_panic by lia. reflexivity.
    + destruct (wrap_cases Release (p + s_size s)) as [->|(q & -> & Hq)]; auto. simpl.
      destruct (q <=? sl_len v); auto. unfold slice_from.
      rewrite slice_range_panic; auto. unfold isize_max, usize_limit in *. lia.
Qed.

(** * Slicing *)
Lemma records_sub s v a n : 0 < s_size s -> wf_struct s -> slice_ok v ->
  0 <= a * s_size s -> 0 <= a -> a * s_size s + n <= sl_len v -> 0 <= n ->
  records s (sl_bytes (mkSlice (skipn (Z.to_nat (a * s_size s)) (sl_mem v)) n)) =
  sublist a (n / s_size s) (records s (sl_bytes v)).
Proof.
  intros Hs Hwf (Hl & Hmax & Hb) Ha0 Ha Hn Hn0.
  set (v' := mkSlice _ _).
  assert (Hl' : len (sl_bytes v') = n).
  { unfold sl_bytes. simpl. apply len_firstn. rewrite len_skipn; lia. }
  assert (Hlv : len (sl_bytes v) = sl_len v) by (apply len_firstn; lia).
  assert (Hq : n / s_size s <= sl_len v / s_size s - a).
  { assert (n / s_size s + a <= sl_len v / s_size s); [|lia].
    rewrite <- Z.div_add by lia. apply Z.div_le_mono; lia. }
  assert (Hq0 : 0 <= n / s_size s) by (apply Z.div_pos; lia).
  apply nth_ext with (d := []) (d' := []).
  - unfold sublist. rewrite firstn_length, skipn_length, !records_length, Hl', Hlv. lia.
  - intros i Hi. rewrite records_length, Hl' in Hi.
    rewrite records_nth by (rewrite Hl'; auto).
    unfold sublist.
    assert (E : forall (A : Type) (l : list A) k i d, (i < k)%nat ->
       nth i (firstn k l) d = nth i l d).
    { clear. intros A l; induction l; intros [|k] [|i] d H; simpl; auto; try lia. apply IHl; lia. }
    rewrite E by lia. clear E.
    assert (E : forall (A : Type) (l : list A) k i d, nth i (skipn k l) d = nth (k + i) l d).
    { clear. intros A l; induction l; intros [|k] i d; simpl; auto. destruct i; auto. }
    rewrite E. rewrite records_nth by (rewrite Hlv; lia).
    apply decode_ext; auto. intros j Hj. rewrite !chunk_bits by lia.
    assert (Hi1 : (Z.of_nat i + 1) * s_size s <= n) by (apply div_lt_mul; lia).
    unfold v', sl_bytes. simpl sl_mem. simpl sl_len.
    assert (0 <= Z.of_nat i * s_size s) by (apply Z.mul_nonneg_nonneg; lia).
    rewrite !bit_at_firstn by lia. rewrite bit_at_skipn by lia.
    f_equal. lia.
Qed.

Lemma av_slice_inv_debug s v lo hi : 0 < s_size s -> slice_ok v -> bound_usize lo -> bound_usize hi ->
  let a := range_lo lo in
  let z := range_hi hi (av_len s v) in
  (a <= z <= av_len s v ->
   forall b, exists w, av_slice b s v lo hi = Ret w /\
     sl_mem w = skipn (Z.to_nat (a * s_size s)) (sl_mem v) /\
     sl_len w = match hi with Unbounded => sl_len v - a * s_size s | _ => (z - a) * s_size s end /\
     a * s_size s + sl_len w <= sl_len v /\ 0 <= sl_len w /\ 0 <= a * s_size s) /\
  (~ (a <= z <= av_len s v) -> av_slice Debug s v lo hi = Panic).
Proof.
  intros Hs (Hl & Hmax & Hb) Hlo Hhi a z.
  assert (Ha : 0 <= a) by (unfold a; destruct lo; simpl in *; unfold is_usize in *; lia).
  assert (Hlim : sl_len v < usize_limit - 1) by (unfold isize_max, usize_limit in *; lia).
  assert (Hst : forall b, a * s_size s < usize_limit -> a < usize_limit ->
     match lo with
     | Included i => data_index b s i
     | Excluded i => k <- uadd b i 1 ;; data_index b s k
     | Unbounded => Ret 0
     end = Ret (a * s_size s)).
  { intros b H1 H2. unfold a in *. destruct lo; simpl in *; unfold is_usize in *.
    - apply data_index_ok. lia.
    - unfold uadd. rewrite wrap_ok by lia. simpl. apply data_index_ok. lia.
    - reflexivity. }
  assert (Hnn : 0 <= a * s_size s) by (apply Z.mul_nonneg_nonneg; lia).
  assert (Hstp : ~ (a * s_size s < usize_limit /\ a < usize_limit) ->
     match lo with
     | Included i => data_index Debug s i
     | Excluded i => k <- uadd Debug i 1 ;; data_index Debug s k
     | Unbounded => Ret 0
     end = Panic).
  { intros H1. unfold a in *. destruct lo; simpl in *; unfold is_usize in *.
    - unfold data_index, umul. apply wrap_debug_panic. lia.
    - unfold uadd. destruct (Z.ltb_spec (i + 1) usize_limit).
      + rewrite wrap_ok by lia. simpl. unfold data_index, umul. apply wrap_debug_panic. lia.
      + rewrite wrap_debug_panic by lia. reflexivity.
    - exfalso. apply H1. unfold usize_limit. lia. }
  set (endb := match hi with Unbounded => sl_len v | _ => z * s_size s end).
  assert (Hz : 0 <= z).
  { unfold z. destruct hi; simpl in *; unfold is_usize in *; try lia.
    unfold av_len. apply Z.div_pos; lia. }
  assert (Hznn : 0 <= z * s_size s) by (apply Z.mul_nonneg_nonneg; lia).
  assert (Hen : forall b, z * s_size s < usize_limit -> z < usize_limit ->
     match hi with
     | Included i => k <- uadd b i 1 ;; data_index b s k
     | Excluded i => data_index b s i
     | Unbounded => Ret (sl_len v)
     end = Ret endb).
  { intros b H1 H2. unfold endb, z in *. destruct hi; simpl in *; unfold is_usize in *.
    - unfold uadd. rewrite wrap_ok by lia. simpl. apply data_index_ok. lia.
    - apply data_index_ok. lia.
    - reflexivity. }
  assert (Henp : (hi <> Unbounded) -> ~ (z * s_size s < usize_limit /\ z < usize_limit) ->
     match hi with
     | Included i => k <- uadd Debug i 1 ;; data_index Debug s k
     | Excluded i => data_index Debug s i
     | Unbounded => Ret (sl_len v)
     end = Panic).
  { intros Hu H1. unfold z in *. destruct hi; simpl in *; unfold is_usize in *; try congruence.
    - unfold uadd. destruct (Z.ltb_spec (i + 1) usize_limit).
      + rewrite wrap_ok by lia. simpl. unfold data_index, umul. apply wrap_debug_panic. lia.
      + rewrite wrap_debug_panic by lia. reflexivity.
    - unfold data_index, umul. apply wrap_debug_panic. lia. }
  assert (Hle : forall k, 0 <= k -> k <= av_len s v <-> k * s_size s <= sl_len v).
  { intros k Hk. unfold av_len. apply div_le_mul; lia. }
  assert (Hself : forall k, 0 <= k -> k <= k * s_size s) by (intros; nia).
  split.
  - intros Hin b. unfold av_slice.
    assert (Hz1 : z * s_size s <= sl_len v) by (apply Hle; lia).
    assert (Ha1 : a * s_size s <= z * s_size s) by (apply Z.mul_le_mono_nonneg_r; lia).
    pose proof (Hself z Hz). rewrite Hst by lia. simpl. rewrite Hen by lia. simpl.
    assert (He1 : z * s_size s <= endb <= sl_len v) by (unfold endb; destruct hi; lia).
    rewrite slice_range_ok by lia. eexists; split; [reflexivity|]. simpl.
    split; auto. split; [unfold endb; destruct hi; lia|]. lia.
  - intros Hout. unfold av_slice.
    destruct (Z.ltb_spec (a * s_size s) usize_limit) as [H1|H1]; [|rewrite Hstp by lia; reflexivity].
    pose proof (Hself a Ha). rewrite Hst by lia. simpl.
    assert (Hcase : hi = Unbounded \/ hi <> Unbounded) by (destruct hi; [right|right|left]; congruence).
    destruct Hcase as [->|Hu].
    + simpl. apply slice_range_panic. simpl in z.
      assert (~ a <= av_len s v) by (unfold z in Hout; lia).
      rewrite Hle in H0 by lia. lia.
    + destruct (Z.ltb_spec (z * s_size s) usize_limit) as [H2|H2]; [|rewrite Henp by (auto; lia); reflexivity].
      pose proof (Hself z Hz). rewrite Hen by lia. simpl.
      apply slice_range_panic.
      assert (He : endb = z * s_size s) by (unfold endb; destruct hi; congruence).
      rewrite He. intros [[_ Hc] Hd]. apply Hout. split.
      * apply (Z.mul_le_mono_pos_r _ _ (s_size s)); lia.
      * apply Hle; lia.
Qed.

Lemma firstn_le {A} (l : list A) n : (length l <= n)%nat -> firstn n l = l.
Proof. intros. now apply firstn_all2. Qed.

Theorem av_slice_spec b s v lo hi : wf_struct s -> slice_ok v ->
  bound_usize lo -> bound_usize hi ->
  range_lo lo <= range_hi hi (av_len s v) <= av_len s v ->
  exists w, av_slice b s v lo hi = Ret w /\ slice_ok w /\
    av_len s w = range_hi hi (av_len s v) - range_lo lo /\
    records s (sl_bytes w) =
      sublist (range_lo lo) (range_hi hi (av_len s v) - range_lo lo) (records s (sl_bytes v)).
Proof.
  intros Hwf Hv Hlo Hhi Hin. pose proof Hwf as (Hs & _).
  destruct (av_slice_inv_debug s v lo hi Hs Hv Hlo Hhi) as [H _].
  destruct (H Hin b) as (w & Hw & Hmem & Hlen & Hle & H0 & Ha).
  exists w. split; auto.
  set (a := range_lo lo) in *. set (z := range_hi hi (av_len s v)) in *.
  assert (Ha0 : 0 <= a) by (unfold a; destruct lo; simpl in *; unfold is_usize in *; lia).
  assert (Hq : av_len s w = z - a).
  { unfold av_len at 1. rewrite Hlen. destruct hi; try (apply Z.div_mul; lia).
    unfold z. simpl. unfold av_len.
    replace (sl_len v - a * s_size s) with (sl_len v + (- a) * s_size s) by lia.
    rewrite Z.div_add by lia. lia. }
  assert (Ew : w = mkSlice (skipn (Z.to_nat (a * s_size s)) (sl_mem v)) (sl_len w))
    by (destruct w; simpl in *; now rewrite Hmem).
  split; [|split; auto].
  - rewrite Ew. replace (sl_len w) with ((a * s_size s + sl_len w) - a * s_size s) by lia.
    apply slice_ok_range; auto; lia.
  - rewrite Ew. rewrite records_sub by (auto; lia). fold (av_len s w). now rewrite Hq.
Qed.

Theorem av_slice_panics_debug s v lo hi : 0 < s_size s -> slice_ok v ->
  bound_usize lo -> bound_usize hi ->
  ~ (range_lo lo <= range_hi hi (av_len s v) <= av_len s v) ->
  av_slice Debug s v lo hi = Panic.
Proof. intros Hs Hv Hlo Hhi. apply (av_slice_inv_debug s v lo hi Hs Hv Hlo Hhi). Qed.

Theorem av_slice_safe b s v lo hi : slice_ok v ->
  av_slice b s v lo hi = Panic \/
  exists w, av_slice b s v lo hi = Ret w /\ view_inside v w /\ slice_ok w.
Proof.
  intros Hv.
  assert (Hd : forall i, data_index b s i = Panic \/ exists y, data_index b s i = Ret y /\ 0 <= y < usize_limit)
    by (intros; apply wrap_cases).
  assert (Ha : forall i, (k <- uadd b i 1 ;; data_index b s k) = Panic \/
     exists y, (k <- uadd b i 1 ;; data_index b s k) = Ret y /\ 0 <= y < usize_limit).
  { intros i. unfold uadd. destruct (wrap_cases b (i + 1)) as [->|(y & -> & Hy)]; auto. simpl. apply Hd. }
  unfold av_slice.
  assert (Hl : let x := match lo with
                | Included i => data_index b s i
                | Excluded i => k <- uadd b i 1 ;; data_index b s k
                | Unbounded => Ret 0
                end in x = Panic \/ exists y, x = Ret y /\ 0 <= y).
  { destruct lo; simpl.
    - destruct (Hd i) as [->|(y & -> & Hy)]; auto. right. exists y. split; auto. lia.
    - destruct (Ha i) as [->|(y & -> & Hy)]; auto. right. exists y. split; auto. lia.
    - right. exists 0. split; auto. lia. }
  assert (Hh : let x := match hi with
              | Included i => k <- uadd b i 1 ;; data_index b s k
              | Excluded i => data_index b s i
              | Unbounded => Ret (sl_len v)
              end in x = Panic \/ exists y, x = Ret y).
  { destruct hi; simpl.
    - destruct (Ha i) as [->|(y & -> & Hy)]; eauto.
    - destruct (Hd i) as [->|(y & -> & Hy)]; eauto.
    - eauto. }
  cbv zeta in Hl, Hh. destruct Hl as [->|(x & -> & Hx)]; auto. simpl.
  destruct Hh as [->|(y & ->)]; auto. simpl.
  destruct ((x <=? y) && (y <=? sl_len v)) eqn:E.
  - rewrite slice_range_ok by lia. right. eexists; split; [reflexivity|]. split.
    + exists x. simpl. repeat split; auto; lia.
    + apply slice_ok_range; auto; lia.
  - left. apply slice_range_panic. lia.
Qed.

(** * Iteration *)
Lemma records_nil_iff s v : slice_ok v -> 0 < s_size s ->
  (av_len s v = Z.of_nat (length (records s (sl_bytes v)))).
Proof.
  intros Hv Hs. rewrite records_length, len_sl_bytes by auto. unfold av_len.
  rewrite Z2Nat.id; auto. destruct Hv. apply Z.div_pos; lia.
Qed.

Lemma av_next_spec b e s v : wf_struct s -> slice_ok v ->
  match records s (sl_bytes v) with
  | [] => av_next b s v = Ret (None, v)
  | x :: r => exists m w, av_next b s v = Ret (Some m, w) /\ shows b e s m x /\
      slice_ok w /\ records s (sl_bytes w) = r
  end.
Proof.
  intros Hwf Hv. pose proof Hwf as (Hs & _).
  pose proof (records_nil_iff s v Hv Hs) as Hlen.
  unfold av_next, av_is_empty. destruct (records s (sl_bytes v)) as [|x r] eqn:Er.
  - simpl in Hlen. now rewrite Hlen.
  - simpl length in Hlen. replace (negb (av_len s v =? 0)) with true by lia.
    destruct (av_at_spec b e s v 0) as (m & Hat & Hok & Hlm & Hf & Hg); auto; try lia.
    rewrite Hat. simpl obind.
    destruct (av_slice_spec b s v (Included 1) Unbounded) as (w & Hw & Hwok & Hwl & Hwr); auto.
    { simpl. unfold is_usize, usize_limit. lia. }
    { simpl. auto. }
    { simpl. lia. }
    rewrite Hw. simpl obind. exists m, w. split; auto. rewrite Er in Hg. split.
    { split; auto. }
    split; auto. rewrite Hwr, Er. unfold sublist. simpl range_lo. simpl range_hi.
    change (skipn (Z.to_nat 1) (x :: r)) with r. apply firstn_le. lia.
Qed.

Lemma av_next_back_spec b e s v : wf_struct s -> slice_ok v ->
  match rev (records s (sl_bytes v)) with
  | [] => av_next_back b s v = Ret (None, v)
  | x :: r => exists m w, av_next_back b s v = Ret (Some m, w) /\ shows b e s m x /\
      slice_ok w /\ records s (sl_bytes w) = rev r
  end.
Proof.
  intros Hwf Hv. pose proof Hwf as (Hs & _).
  pose proof (records_nil_iff s v Hv Hs) as Hlen. rewrite <- rev_length in Hlen.
  unfold av_next_back, av_is_empty.
  destruct (rev (records s (sl_bytes v))) as [|x r] eqn:Er.
  - simpl in Hlen. now rewrite Hlen.
  - simpl length in Hlen. replace (negb (av_len s v =? 0)) with true by lia.
    assert (Hmax : av_len s v < usize_limit).
    { destruct Hv as (Hl & Hm & _). unfold av_len.
      apply Z.le_lt_trans with (sl_len v).
      - apply Z.div_le_upper_bound; nia.
      - unfold isize_max, usize_limit in *. lia. }
    unfold usub. rewrite wrap_ok by lia. simpl obind.
    destruct (av_at_spec b e s v (av_len s v - 1)) as (m & Hat & Hok & Hlm & Hf & Hg); auto; try lia.
    rewrite Hat. simpl obind.
    destruct (av_slice_spec b s v Unbounded (Excluded (av_len s v - 1))) as (w & Hw & Hwok & Hwl & Hwr); auto.
    { simpl. auto. }
    { simpl. unfold is_usize. lia. }
    { simpl. lia. }
    rewrite Hw. simpl obind. exists m, w. split; auto.
    assert (Hrec : records s (sl_bytes v) = rev r ++ [x]).
    { rewrite <- (rev_involutive (records _ _)), Er. reflexivity. }
    replace (Z.to_nat (av_len s v - 1)) with (length (rev r)) in Hg by (rewrite rev_length; lia).
    rewrite Hrec, app_nth2, Nat.sub_diag in Hg by lia. simpl in Hg.
    split; [split; auto|]. split; auto. rewrite Hwr. unfold sublist. simpl range_lo. simpl range_hi.
    change (skipn (Z.to_nat 0) (records s (sl_bytes v))) with (records s (sl_bytes v)).
    rewrite Hrec. rewrite firstn_app.
    replace (Z.to_nat (av_len s v - 1 - 0) - length (rev r))%nat with 0%nat by (rewrite rev_length; lia).
    simpl. rewrite app_nil_r. apply firstn_le. rewrite rev_length. lia.
Qed.

Theorem av_iter_run_spec b e s calls v : wf_struct s -> slice_ok v ->
  exists outs w, av_iter_run b s calls v = Ret (outs, w) /\ slice_ok w /\
    Forall2 (shows_opt b e s) outs (fst (deque_run calls (records s (sl_bytes v)))) /\
    records s (sl_bytes w) = snd (deque_run calls (records s (sl_bytes v))) /\
    av_iter_len s w = Z.of_nat (length (snd (deque_run calls (records s (sl_bytes v))))).
Proof.
  intros Hwf. revert v. induction calls as [|c calls IH]; intros v Hv; simpl.
  - exists [], v. split; auto. split; auto. split; [constructor|]. split; auto.
    apply records_nil_iff; auto. now destruct Hwf.
  - destruct c; simpl.
    + pose proof (av_next_back_spec b e s v Hwf Hv) as Hn.
      destruct (rev (records s (sl_bytes v))) as [|x r] eqn:Er.
      * rewrite Hn. simpl obind. destruct (IH v Hv) as (outs & w & Hr & Hok & Hf & Hrec & Hl).
        simpl. rewrite Hr. simpl obind.
        assert (Hnil : records s (sl_bytes v) = []).
        { rewrite <- (rev_involutive (records _ _)), Er. reflexivity. }
        rewrite Hnil in *.
        exists (None :: outs), w. split; [reflexivity|]. split; [assumption|].
        split; [constructor; simpl; auto|auto].
      * destruct Hn as (m & w1 & Hn & Hsh & Hok1 & Hr1). rewrite Hn. simpl obind. simpl.
        destruct (IH w1 Hok1) as (outs & w & Hr & Hok & Hf & Hrec & Hl). rewrite Hr1 in *.
        rewrite Hr. simpl obind. exists (Some m :: outs), w. split; [reflexivity|]. split; [assumption|].
        split; [constructor; simpl; auto|auto].
    + pose proof (av_next_spec b e s v Hwf Hv) as Hn.
      destruct (records s (sl_bytes v)) as [|x r] eqn:Er.
      * rewrite Hn. simpl obind. destruct (IH v Hv) as (outs & w & Hr & Hok & Hf & Hrec & Hl).
        simpl. rewrite Hr. simpl obind. rewrite Er in *.
        exists (None :: outs), w. split; [reflexivity|]. split; [assumption|].
        split; [constructor; simpl; auto|auto].
      * destruct Hn as (m & w1 & Hn & Hsh & Hok1 & Hr1). rewrite Hn. simpl obind. simpl.
        destruct (IH w1 Hok1) as (outs & w & Hr & Hok & Hf & Hrec & Hl). rewrite Hr1 in *.
        rewrite Hr. simpl obind. exists (Some m :: outs), w. split; [reflexivity|]. split; [assumption|].
        split; [constructor; simpl; auto|auto].
Qed.

Lemma av_take_spec b e s n v : wf_struct s -> slice_ok v ->
  exists ms, av_take b s n v = Ret ms /\
    map_outcome (get_all b e s) ms = Ret (firstn n (records s (sl_bytes v))).
Proof.
  intros Hwf. revert v. induction n; intros v Hv; simpl.
  - exists []. auto.
  - pose proof (av_next_spec b e s v Hwf Hv) as Hn.
    destruct (records s (sl_bytes v)) as [|x r] eqn:Er.
    + rewrite Hn. simpl. exists []. auto.
    + destruct Hn as (m & w1 & Hn & [_ Hsh] & Hok1 & Hr1). rewrite Hn. simpl.
      destruct (IHn w1 Hok1) as (ms & Ht & Hm). rewrite Hr1 in *.
      rewrite Ht. simpl. exists (m :: ms). split; auto. simpl. rewrite Hsh. simpl.
      rewrite Hm. reflexivity.
Qed.

Theorem av_debug_spec b e s v : wf_struct s -> slice_ok v ->
  let l := records s (sl_bytes v) in
  av_debug b e s v = Ret (Z.of_nat (length l), firstn 10 l, (10 <? length l)%nat).
Proof.
  intros Hwf Hv l. unfold av_debug.
  destruct (av_take_spec b e s (Z.to_nat DEBUG_PREVIEW_LEN) v Hwf Hv) as (ms & Ht & Hm).
  rewrite Ht. simpl. rewrite Hm. simpl. unfold av_iter_len.
  rewrite records_nil_iff by (auto; now destruct Hwf). fold l.
  do 2 f_equal. unfold DEBUG_PREVIEW_LEN.
  destruct (Nat.ltb_spec 10 (length l)); lia.
Qed.

Lemma skipn_skipn' (A : Type) (l : list A) a b : skipn a (skipn b l) = skipn (b + a) l.
Proof. revert l; induction b; intros l; simpl; auto. destruct l; simpl; auto. now rewrite skipn_nil. Qed.

(** * Safety of arbitrary call sequences *)
Lemma view_inside_trans u v w : slice_ok u -> view_inside u v -> view_inside v w -> view_inside u w.
Proof.
  intros (Hu & _) (p & Hp & Hpl & Hp0 & Hpm) (q & Hq & Hql & Hq0 & Hqm).
  exists (p + q). repeat split; try lia. rewrite Hqm, Hpm.
  rewrite skipn_skipn'. f_equal. lia.
Qed.

Theorem view_calls_safe b s calls v0 : 0 < s_size s <= isize_max -> slice_ok v0 ->
  Forall call_usize calls ->
  view_calls b s calls v0 = Panic \/
  exists hs w, view_calls b s calls v0 = Ret (hs, w) /\ view_inside v0 w /\
    Forall (handle_inside s v0) hs.
Proof.
  intros Hs H0 Hc.
  assert (Hself : view_inside v0 v0).
  { exists 0. destruct H0 as (? & _). simpl. repeat split; auto; lia. }
  assert (Hgen : forall v, slice_ok v -> view_inside v0 v ->
    view_calls b s calls v = Panic \/
    exists hs w, view_calls b s calls v = Ret (hs, w) /\ view_inside v0 w /\
      Forall (handle_inside s v0) hs).
  2:{ apply Hgen; auto. }
  clear Hself. induction Hc as [|c calls Hc Hcs IH]; intros v Hv Hin; simpl.
  - right. exists [], v. auto.
  - assert (Hh : forall p, 0 <= p -> p + s_size s <= sl_len v ->
        handle_inside s v0 (skipn (Z.to_nat p) (sl_mem v))).
    { intros p Hp Hpl. destruct Hin as (q & Hq & Hql & Hq0 & Hqm).
      exists (q + p). repeat split; try lia. rewrite Hqm, skipn_skipn'. f_equal. lia. }
    assert (Hat : forall i, is_usize i -> av_at b s v i = Panic \/
        exists m, av_at b s v i = Ret m /\ handle_inside s v0 m).
    { intros i Hi. destruct (av_at_safe b s v i Hs Hv Hi) as [->|(p & Hp & Hpl & ->)]; auto.
      right. eauto. }
    assert (Hsl : forall lo hi, av_slice b s v lo hi = Panic \/
        exists w, av_slice b s v lo hi = Ret w /\ view_inside v0 w /\ slice_ok w).
    { intros lo hi. destruct (av_slice_safe b s v lo hi Hv) as [->|(w & -> & Hw & Hok)]; auto.
      right. exists w. split; auto. split; auto. now apply view_inside_trans with v. }
    assert (Hx : view_step b s c v = Panic \/
       exists o w, view_step b s c v = Ret (o, w) /\ slice_ok w /\ view_inside v0 w /\
             match o with Some m => handle_inside s v0 m | None => True end).
    { unfold view_step. destruct c as [i|lo hi| |]; simpl in Hc.
      - destruct (Hat i Hc) as [->|(m & -> & Hm)]; auto. right. simpl. eauto 10.
      - destruct (Hsl lo hi) as [->|(w & -> & Hw & Hok)]; auto. right. simpl.
        exists None, w. auto.
      - unfold av_next. destruct (negb _).
        + destruct (Hat 0) as [->|(m & -> & Hm)]; auto.
          { unfold is_usize, usize_limit. lia. }
          simpl. destruct (Hsl (Included 1) Unbounded) as [->|(w & -> & Hw & Hok)]; auto.
          right. simpl. exists (Some m), w. auto.
        + right. exists None, v. auto.
      - unfold av_next_back. destruct (negb _).
        + unfold usub. destruct (wrap_cases b (av_len s v - 1)) as [->|(y & -> & Hy)]; auto.
          simpl. destruct (Hat y Hy) as [->|(m & -> & Hm)]; auto. simpl.
          destruct (Hsl Unbounded (Excluded y)) as [->|(w & -> & Hw & Hok)]; auto.
          right. simpl. exists (Some m), w. auto.
        + right. exists None, v. auto. }
    destruct Hx as [->|(o & w & -> & Hok & Hw & Ho)]; auto. simpl.
    destruct (IH w Hok Hw) as [->|(hs & w' & -> & Hw' & Hhs)]; auto. simpl.
    right. eexists _, w'. split; [reflexivity|]. split; auto. destruct o; auto.
Qed.

(** * Vector *)
Lemma records_app s a n x : 0 < s_size s -> wf_struct s -> 0 <= n -> len a = n * s_size s ->
  records s (a ++ x) = records s a ++ records s x.
Proof.
  intros Hs Hwf Hn0 Hn.
  assert (Hq : len (a ++ x) / s_size s = n + len x / s_size s).
  { rewrite len_app, Hn. rewrite Z.add_comm, Z.div_add by lia. lia. }
  assert (Ha : len a / s_size s = n) by (rewrite Hn; apply Z.div_mul; lia).
  pose proof (len_nonneg x) as Hx. assert (Hxq : 0 <= len x / s_size s) by (apply Z.div_pos; lia).
  apply (nth_ext _ _ [] []).
  - rewrite app_length, !records_length, Hq, Ha. lia.
  - intros i Hi. rewrite records_length, Hq in Hi.
    rewrite records_nth by (rewrite Hq; lia).
    assert (Hin : Z.of_nat i * s_size s >= 0) by nia.
    destruct (Nat.lt_ge_cases i (Z.to_nat n)) as [Hlt|Hge].
    + rewrite app_nth1 by (rewrite records_length, Ha; auto).
      rewrite records_nth by (rewrite Ha; auto).
      apply decode_ext; auto. intros j Hj. rewrite !chunk_bits by lia.
      rewrite bit_at_app by nia. replace (_ <? _) with true by nia. reflexivity.
    + rewrite app_nth2 by (rewrite records_length, Ha; auto).
      rewrite records_length, Ha.
      rewrite records_nth by lia.
      apply decode_ext; auto. intros j Hj. rewrite !chunk_bits by lia.
      rewrite bit_at_app by nia. replace (_ <? _) with false by nia. f_equal. nia.
Qed.

Lemma records_nil s : records s [] = [].
Proof. unfold records. rewrite len_nil, Zdiv_0_l. reflexivity. Qed.

Lemma records_single s c : 0 < s_size s -> wf_struct s -> len c = s_size s ->
  records s c = [decode s c].
Proof.
  intros Hs Hwf Hc. unfold records. rewrite Hc, Z.div_same by lia.
  change (Z.to_nat 1) with 1%nat. simpl. f_equal. unfold chunk. simpl.
  apply decode_firstn; auto. lia.
Qed.

Lemma handle_mid b e s sets pre mid post : wf_struct s -> sets_ok s sets ->
  len mid = s_size s -> bytes_ok (pre ++ mid ++ post) ->
  exists mid', through_handle b e s sets (pre ++ mid ++ post) (len pre) = Ret (pre ++ mid' ++ post) /\
    len mid' = s_size s /\ bytes_ok mid' /\ decode s mid' = apply_sets sets (decode s mid).
Proof.
  intros Hwf Hsets Hmid Hb. apply bytes_ok_app in Hb. destruct Hb as [Hb1 Hb2].
  assert (Hpre : Z.to_nat (len pre) = length pre) by (unfold len; lia).
  unfold through_handle. rewrite Hpre, skipn_app, Nat.sub_diag, skipn_all. simpl app.
  rewrite firstn_app, Nat.sub_diag, firstn_all. simpl firstn. rewrite app_nil_r.
  change (skipn 0 (mid ++ post)) with (mid ++ post).
  pose proof (len_nonneg post).
  destruct (run_sets_decode b e s sets (mid ++ post)) as (m' & Hr & Hok & Hlen & Hdec & Htail & _); auto.
  { rewrite len_app; lia. }
  rewrite Hr. simpl.
  exists (firstn (Z.to_nat (s_size s)) m').
  rewrite len_app in Hlen. destruct Hwf as (Hs & Hrest).
  assert (Hwf : wf_struct s) by (split; auto).
  split; [|split; [|split]].
  - f_equal. f_equal. rewrite <- (firstn_skipn (Z.to_nat (s_size s)) m') at 1. f_equal.
    rewrite Htail. rewrite skipn_app.
    assert (Hm : length mid = Z.to_nat (s_size s)) by (unfold len in Hmid; lia).
    rewrite <- Hm, skipn_all, Nat.sub_diag. reflexivity.
  - apply len_firstn. lia.
  - now apply bytes_ok_firstn.
  - rewrite decode_firstn by (auto; lia). rewrite Hdec. f_equal.
    apply decode_ext; auto. intros i Hi. rewrite bit_at_app by lia.
    now replace (i <? 8 * len mid) with true by lia.
Qed.

Lemma split_at (l : list Z) p n : 0 <= p -> 0 <= n -> p + n <= len l ->
  exists a c z, l = a ++ c ++ z /\ len a = p /\ len c = n /\ len z = len l - p - n.
Proof.
  intros Hp Hn Hl. exists (firstn (Z.to_nat p) l), (firstn (Z.to_nat n) (skipn (Z.to_nat p) l)),
    (skipn (Z.to_nat n) (skipn (Z.to_nat p) l)).
  rewrite !firstn_skipn. split; auto. split; [apply len_firstn; lia|].
  split; [apply len_firstn; rewrite len_skipn; lia|].
  rewrite !len_skipn; rewrite ?len_skipn; lia.
Qed.

Lemma updl_app {A} (a : list A) x z f : updl (length a) f (a ++ x :: z) = a ++ f x :: z.
Proof. induction a; simpl; auto. now rewrite IHa. Qed.

Lemma handle_els b e s sets els n i pad : wf_struct s -> sets_ok s sets ->
  len els = n * s_size s -> 0 <= i < n -> bytes_ok els -> bytes_ok pad ->
  exists els', through_handle b e s sets (els ++ pad) (i * s_size s) = Ret (els' ++ pad) /\
    len els' = len els /\ bytes_ok els' /\
    records s els' = updl (Z.to_nat i) (apply_sets sets) (records s els) /\
    firstn (Z.to_nat (i * s_size s)) els' = firstn (Z.to_nat (i * s_size s)) els.
Proof.
  intros Hwf Hsets Hn Hi Hb Hp. pose proof Hwf as (Hs & _).
  destruct (split_at els (i * s_size s) (s_size s)) as (a & c & z & -> & Ha & Hc & Hz); try nia.
  rewrite !bytes_ok_app in Hb. destruct Hb as (Hba & Hbc & Hbz).
  destruct (handle_mid b e s sets a c (z ++ pad)) as (c' & Hr & Hlc & Hbc' & Hd); auto.
  { rewrite !bytes_ok_app. auto. }
  rewrite Ha in Hr. rewrite <- !app_assoc. rewrite Hr.
  exists (a ++ c' ++ z). rewrite <- !app_assoc. split; auto.
  split; [rewrite !len_app; lia|]. split; [rewrite !bytes_ok_app; auto|].
  rewrite !(records_app s a i) by (auto; lia).
  rewrite !(records_app s _ 1 z) by (auto; lia).
  rewrite (records_single s c), (records_single s c') by auto. rewrite Hd. split.
  - assert (Hl : length (records s a) = Z.to_nat i)
      by (rewrite records_length, Ha, Z.div_mul by lia; reflexivity).
    rewrite <- Hl. simpl. now rewrite updl_app.
  - assert (Hla : length a = Z.to_nat (i * s_size s)) by (unfold len in Ha; lia).
    rewrite <- Hla, !firstn_app, !Nat.sub_diag. reflexivity.
Qed.

(** The vector invariant: whole elements followed by the padding. *)
Definition vec_inv (s : sdesc) (data : list Z) (l : list (list Z)) : Prop :=
  exists els, data = els ++ zeros 8 /\ bytes_ok els /\
    len els = Z.of_nat (length l) * s_size s /\ records s els = l /\ len data <= isize_max.

Lemma vec_size_ok b els : len (els ++ zeros 8) <= isize_max ->
  vec_size_in_bytes b (els ++ zeros 8) = Ret (len els).
Proof.
  intros H. unfold vec_size_in_bytes, usub. rewrite len_app, len_zeros in * by lia.
  pose proof (len_nonneg els). unfold PADDING_SIZE, isize_max in *.
  rewrite wrap_ok by (unfold usize_limit; lia). f_equal. lia.
Qed.

Lemma vec_len_ok b s data l : 0 < s_size s -> vec_inv s data l -> vec_len b s data = Ret (Z.of_nat (length l)).
Proof.
  intros Hs (els & -> & Hb & Hl & Hr & Hm). unfold vec_len. rewrite vec_size_ok by auto. simpl.
  rewrite Hl, Z.div_mul by lia. reflexivity.
Qed.

Lemma zeros_app a b : 0 <= a -> 0 <= b -> zeros a ++ zeros b = zeros (a + b).
Proof. intros. unfold zeros. rewrite <- repeat_app. f_equal. lia. Qed.

Lemma vec_with_len_ok b s n : wf_struct s -> 0 <= n -> n * s_size s + 8 <= isize_max ->
  exists data, vec_with_len b s n = Ret data /\
    vec_inv s data (repeat (zero_record s) (Z.to_nat n)).
Proof.
  intros Hwf Hn Hm. pose proof Hwf as (Hs & _). unfold isize_max in Hm.
  assert (Hnn : 0 <= n * s_size s) by nia.
  unfold vec_with_len, calc_size, umul, uadd. rewrite wrap_ok by (unfold usize_limit; lia).
  simpl. rewrite wrap_ok by (unfold usize_limit, PADDING_SIZE; lia). simpl.
  unfold vec_resize, PADDING_SIZE, isize_max. rewrite len_nil.
  replace (_ <=? _) with true by lia. rewrite firstn_nil, Z.sub_0_r. simpl app.
  eexists. split; [reflexivity|].
  exists (zeros (n * s_size s)). rewrite zeros_app by lia. split; auto.
  split; [apply bytes_ok_zeros|]. split; [rewrite len_zeros, repeat_length by lia; lia|].
  split; [|rewrite len_zeros by lia; unfold isize_max; lia].
  clear Hm. replace n with (Z.of_nat (Z.to_nat n)) at 1 by lia.
  clear Hnn Hn. induction (Z.to_nat n) as [|k IH].
  - replace (Z.of_nat 0 * s_size s) with 0 by lia. apply records_nil.
  - replace (Z.of_nat (S k) * s_size s) with (s_size s + Z.of_nat k * s_size s) by lia.
    rewrite <- zeros_app by lia.
    rewrite (records_app s _ 1) by (auto; try lia; rewrite len_zeros; lia).
    rewrite records_single by (auto; rewrite len_zeros; lia).
    rewrite decode_zeros by auto. rewrite IH. reflexivity.
Qed.

Lemma vec_grow_ok b s data l : wf_struct s -> vec_inv s data l ->
  (Z.of_nat (length l) + 1) * s_size s + 8 <= isize_max ->
  exists data', vec_grow b s data = Ret (data', Z.of_nat (length l) * s_size s) /\
    vec_inv s data' (l ++ [zero_record s]).
Proof.
  intros Hwf (els & -> & Hb & Hl & Hr & Hm) Hmax. pose proof Hwf as (Hs & _).
  set (n := Z.of_nat (length l)) in *. assert (Hn : 0 <= n) by (unfold n; lia).
  assert (Hnn : 0 <= n * s_size s) by nia.
  assert (Hnew : vec_inv s ((els ++ zeros (s_size s)) ++ zeros 8) (l ++ [zero_record s])).
  { exists (els ++ zeros (s_size s)). split; auto.
    split; [rewrite bytes_ok_app; auto using bytes_ok_zeros|].
    split. { rewrite len_app, Hl, len_zeros, app_length by lia. simpl length. fold n. lia. }
    split. { rewrite (records_app s _ n) by (auto; lia). rewrite Hr. f_equal.
             rewrite records_single by (auto; rewrite len_zeros; lia). now rewrite decode_zeros. }
    rewrite !len_app, Hl, !len_zeros by lia. lia. }
  unfold vec_grow, uadd. rewrite len_app, len_zeros by lia. rewrite Hl.
  unfold isize_max in Hmax.
  rewrite wrap_ok by (unfold usize_limit; lia). simpl.
  unfold vec_resize, isize_max. replace (_ <=? _) with true by lia.
  assert (Hres : firstn (Z.to_nat (n * s_size s + 8 + s_size s)) (els ++ zeros 8) ++
     zeros (n * s_size s + 8 + s_size s - len (els ++ zeros 8)) =
     (els ++ zeros (s_size s)) ++ zeros 8).
  { rewrite firstn_le by (unfold len in *; rewrite app_length; unfold zeros; rewrite repeat_length; lia).
    rewrite <- !app_assoc. f_equal. rewrite len_app, Hl, len_zeros by lia.
    rewrite !zeros_app by lia. f_equal. lia. }
  rewrite Hres. simpl. rewrite (vec_len_ok b s _ _ Hs Hnew). simpl.
  rewrite app_length. simpl length. unfold usub. rewrite wrap_ok by (unfold usize_limit; nia).
  simpl. unfold umul.
  replace ((Z.of_nat (length l + 1) - 1) * s_size s) with (n * s_size s) by (unfold n; lia).
  rewrite wrap_ok by (unfold usize_limit; lia). simpl.
  unfold slice_from, whole. simpl sl_len. rewrite slice_range_ok.
  - simpl. eexists. split; [reflexivity|]. exact Hnew.
  - rewrite !len_app, !len_zeros, Hl by lia. lia.
  - simpl. lia.
Qed.

Lemma updl_length {A} i f (l : list A) : length (updl i f l) = length l.
Proof. revert i; induction l; intros [|i]; simpl; auto. Qed.

Lemma vec_through_ok b e s data l i sets : wf_struct s -> vec_inv s data l -> sets_ok s sets ->
  0 <= i < Z.of_nat (length l) ->
  exists data', through_handle b e s sets data (i * s_size s) = Ret data' /\
    vec_inv s data' (updl (Z.to_nat i) (apply_sets sets) l).
Proof.
  intros Hwf (els & -> & Hb & Hl & Hr & Hm) Hsets Hi.
  destruct (handle_els b e s sets els (Z.of_nat (length l)) i (zeros 8)) as (els' & Hx & Hlen & Hb' & Hrec & _);
    auto using bytes_ok_zeros.
  rewrite Hx. eexists; split; [reflexivity|]. exists els'. split; auto. split; auto.
  rewrite updl_length. split; [lia|]. split; [rewrite Hrec, Hr; auto|].
  rewrite !len_app in *. lia.
Qed.

Theorem vec_run_refines b e s ops data l : wf_struct s -> vec_inv s data l ->
  vec_ops_ok s ops (Z.of_nat (length l)) ->
  exists data', vec_run b e s ops data = Ret data' /\
    vec_inv s data' (fold_left (fun l o => list_step s o l) ops l).
Proof.
  intros Hwf. pose proof Hwf as (Hs & _). revert data l.
  induction ops as [|o ops IH]; intros data l Hinv Hok; simpl.
  - eauto.
  - destruct o as [sets|i sets|a]; simpl in Hok |- *.
    + destruct Hok as (Hsets & Hmax & Hok).
      destruct (vec_grow_ok b s data l) as (d1 & Hg & Hi1); auto. rewrite Hg. simpl.
      destruct (vec_through_ok b e s d1 _ (Z.of_nat (length l)) sets Hwf Hi1 Hsets) as (d2 & Hh & Hi2).
      { rewrite app_length. simpl length. lia. }
      rewrite Hh. simpl. rewrite Nat2Z.id in Hi2. rewrite updl_app in Hi2.
      apply IH; auto. rewrite app_length. simpl length.
      replace (Z.of_nat (length l + 1)) with (Z.of_nat (length l) + 1) by lia. auto.
    + destruct Hok as (Hi & Hsets & Hok).
      destruct (vec_through_ok b e s data l i sets Hwf Hinv Hsets Hi) as (d2 & Hh & Hi2).
      unfold vec_at_mut, umul. pose proof Hinv as (els & Hd & Hb & Hl & Hr & Hm).
      assert (Hle : 0 <= i * s_size s <= len data).
      { rewrite Hd, len_app, Hl, len_zeros by lia. nia. }
      unfold isize_max in Hm.
      rewrite wrap_ok by (unfold usize_limit; lia). simpl.
      unfold slice_from. rewrite slice_range_ok by (simpl; lia). simpl. rewrite Hh. simpl.
      apply IH; auto. now rewrite updl_length.
    + destruct Hok as (Ha & Hmax & Hok).
      unfold vec_reserve. rewrite (vec_len_ok b s data l) by auto. simpl.
      pose proof Hinv as (els & Hd & Hb & Hl & Hr & Hm). unfold isize_max in *.
      unfold uadd, calc_size, umul, uadd, PADDING_SIZE.
      assert (0 <= a * s_size s) by nia. assert (0 <= Z.of_nat (length l) * s_size s) by nia.
      rewrite wrap_ok by (unfold usize_limit; nia). simpl.
      rewrite wrap_ok by (unfold usize_limit; nia). simpl.
      rewrite wrap_ok by (unfold usize_limit; nia). simpl.
      subst data. rewrite vec_size_ok by auto. simpl. unfold usub.
      rewrite wrap_ok by (unfold usize_limit; lia). simpl.
      rewrite len_app, len_zeros in * by lia.
      replace (_ <=? _) with true by lia. simpl. apply IH; auto.
Qed.

Lemma vec_at_ok b e s data l i : wf_struct s -> vec_inv s data l -> 0 <= i < Z.of_nat (length l) ->
  exists m, vec_at b s data i = Ret m /\ shows b e s m (nth (Z.to_nat i) l []) /\
    m = skipn (Z.to_nat (i * s_size s)) data.
Proof.
  intros Hwf (els & -> & Hb & Hl & Hr & Hm) Hi. pose proof Hwf as (Hs & _).
  assert (Hok : bytes_ok (els ++ zeros 8)) by (rewrite bytes_ok_app; auto using bytes_ok_zeros).
  assert (Hle : 0 <= i * s_size s /\ i * s_size s + s_size s <= len els) by nia.
  unfold vec_at, umul. unfold isize_max in Hm. rewrite len_app, len_zeros in Hm by lia.
  rewrite wrap_ok by (unfold usize_limit; lia). simpl.
  unfold slice_from. simpl sl_len.
  rewrite slice_range_ok by (simpl; rewrite ?len_app, ?len_zeros; lia). simpl.
  eexists. split; [reflexivity|]. split; [|reflexivity]. 
  assert (Hlm : s_size s <= len (skipn (Z.to_nat (i * s_size s)) (els ++ zeros 8)))
    by (rewrite len_skipn; rewrite len_app, len_zeros; lia).
  split; auto. rewrite get_all_decode; auto using bytes_ok_skipn. f_equal.
  subst l. rewrite records_nth by (rewrite records_length in Hi; lia).
  apply decode_skipn; auto. intros j Hj. rewrite bit_at_skipn by lia.
  rewrite Z2Nat.id by lia. rewrite bit_at_app by nia.
  now replace (_ <? _) with true by nia.
Qed.

Lemma vec_as_view_ok b s data l : wf_struct s -> vec_inv s data l ->
  exists v, vec_as_view b data = Ret v /\ slice_ok v /\ records s (sl_bytes v) = l /\
    sl_len v = Z.of_nat (length l) * s_size s /\ data = sl_bytes v ++ zeros 8.
Proof.
  intros Hwf (els & -> & Hb & Hl & Hr & Hm).
  unfold vec_as_view. rewrite vec_size_ok by auto. simpl.
  pose proof (len_nonneg els).
  rewrite slice_range_ok by (simpl; rewrite ?len_app, ?len_zeros; lia).
  eexists. split; [reflexivity|].
  assert (He : sl_bytes {| sl_mem := skipn (Z.to_nat 0) (sl_mem (whole (els ++ zeros 8)));
     sl_len := len els - 0 |} = els).
  { unfold sl_bytes. simpl. rewrite Z.sub_0_r. unfold len. rewrite Nat2Z.id.
    change (Z.to_nat 0) with 0%nat. simpl. rewrite firstn_app, Nat.sub_diag, firstn_all.
    simpl. apply app_nil_r. }
  rewrite He. split; [|split; [auto|split; [simpl; lia|auto]]].
  apply slice_ok_range.
  - apply slice_ok_whole; auto. rewrite bytes_ok_app. auto using bytes_ok_zeros.
  - lia.
  - simpl. rewrite len_app, len_zeros by lia. lia.
Qed.

Theorem vector_refines b e s n ops : wf_struct s -> 0 <= n -> n * s_size s + 8 <= isize_max ->
  vec_ops_ok s ops n ->
  let l := fold_left (fun l o => list_step s o l) ops (repeat (zero_record s) (Z.to_nat n)) in
  exists data v,
    obind (vec_with_len b s n) (vec_run b e s ops) = Ret data /\
    vec_len b s data = Ret (Z.of_nat (length l)) /\
    vec_as_view b data = Ret v /\ slice_ok v /\ av_len s v = Z.of_nat (length l) /\
    records s (sl_bytes v) = l /\ data = sl_bytes v ++ zeros 8 /\
    forall i, 0 <= i < Z.of_nat (length l) ->
      (exists m, vec_at b s data i = Ret m /\ shows b e s m (nth (Z.to_nat i) l [])) /\
      (exists m, av_at b s v i = Ret m /\ shows b e s m (nth (Z.to_nat i) l [])).
Proof.
  intros Hwf Hn Hm Hok l. pose proof Hwf as (Hs & _).
  destruct (vec_with_len_ok b s n Hwf Hn Hm) as (d0 & H0 & Hi0).
  destruct (vec_run_refines b e s ops d0 _ Hwf Hi0) as (data & Hrun & Hinv).
  { rewrite repeat_length, Z2Nat.id by lia. auto. }
  fold l in Hinv. destruct (vec_as_view_ok b s data l Hwf Hinv) as (v & Hv & Hvok & Hrec & Hlen & Hd).
  assert (Hal : av_len s v = Z.of_nat (length l)).
  { rewrite records_nil_iff by auto. now rewrite Hrec. }
  exists data, v. split; [now rewrite H0|]. split; [now apply vec_len_ok|].
  split; auto. split; auto. split; auto. split; auto. split; auto.
  intros i Hi. split.
  - destruct (vec_at_ok b e s data l i Hwf Hinv Hi) as (m & Hm1 & Hm2 & _). eauto.
  - destruct (av_at_spec b e s v i Hwf Hvok) as (m & Hm1 & _ & Hl1 & _ & Hg); [lia|].
    exists m. split; auto. rewrite Hrec in Hg. split; auto.
Qed.

(** * Composition of slices *)
Lemma sublist_sublist {A} a n c k (l : list A) : 0 <= a -> 0 <= c -> 0 <= k -> c + k <= n ->
  sublist c k (sublist a n l) = sublist (a + c) k l.
Proof.
  intros. unfold sublist. rewrite skipn_firstn_comm, firstn_firstn, skipn_skipn'.
  f_equal; [lia|]. f_equal. lia.
Qed.

Theorem av_slice_compose b s v lo1 hi1 lo2 hi2 : wf_struct s -> slice_ok v ->
  bound_usize lo1 -> bound_usize hi1 -> bound_usize lo2 -> bound_usize hi2 ->
  let n := av_len s v in
  let a := range_lo lo1 in let z := range_hi hi1 n in
  let c := range_lo lo2 in let d := range_hi hi2 (z - a) in
  a <= z <= n -> c <= d <= z - a ->
  exists w w' u, av_slice b s v lo1 hi1 = Ret w /\ av_slice b s w lo2 hi2 = Ret w' /\
    av_slice b s v (Included (a + c)) (Excluded (a + d)) = Ret u /\
    records s (sl_bytes w') = records s (sl_bytes u).
Proof.
  intros Hwf Hv H1 H2 H3 H4 n a z c d Haz Hcd. pose proof Hwf as (Hs & _).
  assert (Ha : 0 <= a) by (unfold a; destruct lo1; simpl in *; unfold is_usize in *; lia).
  assert (Hc : 0 <= c) by (unfold c; destruct lo2; simpl in *; unfold is_usize in *; lia).
  assert (Hn : n <= isize_max).
  { unfold n, av_len. destruct Hv as (Hl & Hm & _). apply Z.le_trans with (sl_len v); auto.
    apply Z.div_le_upper_bound; nia. }
  unfold isize_max in Hn.
  destruct (av_slice_spec b s v lo1 hi1) as (w & Hw & Hwok & Hwl & Hwr); auto.
  destruct (av_slice_spec b s w lo2 hi2) as (w' & Hw' & Hwok' & Hwl' & Hwr'); auto.
  { fold n a z in Hwl. rewrite Hwl. auto. }
  destruct (av_slice_spec b s v (Included (a + c)) (Excluded (a + d))) as (u & Hu & Huok & Hul & Hur); auto.
  { simpl. unfold is_usize, usize_limit. lia. }
  { simpl. unfold is_usize, usize_limit. lia. }
  { simpl. fold n. lia. }
  exists w, w', u. split; auto. split; auto. split; auto.
  rewrite Hwr', Hwr, Hur, Hwl. simpl. fold n a z c d.
  rewrite sublist_sublist by lia. f_equal. lia.
Qed.

(** A view of a view is the view: half-open ranges give the very same slice. *)
Theorem av_slice_compose_exact b s v a z c d : 0 < s_size s -> slice_ok v ->
  0 <= a <= z -> z <= av_len s v -> 0 <= c <= d -> d <= z - a ->
  exists w w', av_slice b s v (Included a) (Excluded z) = Ret w /\
    av_slice b s w (Included c) (Excluded d) = Ret w' /\
    av_slice b s v (Included (a + c)) (Excluded (a + d)) = Ret w'.
Proof.
  intros Hs Hv Haz Hz Hcd Hd.
  assert (Hn : av_len s v <= isize_max).
  { unfold av_len. destruct Hv as (Hl & Hm & _). apply Z.le_trans with (sl_len v); auto.
    apply Z.div_le_upper_bound; nia. }
  unfold isize_max in Hn.
  assert (Hu : forall x, 0 <= x <= av_len s v -> is_usize x) by (intros; unfold is_usize, usize_limit; lia).
  assert (Hin : forall x, 0 <= x <= av_len s v -> 0 <= x * s_size s <= sl_len v).
  { intros x Hx. unfold av_len in Hx. pose proof (Z.mul_div_le (sl_len v) (s_size s) Hs). nia. }
  destruct Hv as (Hl & Hm & Hb). unfold isize_max in Hm.
  pose proof (Hin a ltac:(lia)). pose proof (Hin z ltac:(lia)).
  pose proof (Hin (a + c) ltac:(lia)). pose proof (Hin (a + d) ltac:(lia)).
  pose proof (Hin c ltac:(lia)). pose proof (Hin d ltac:(lia)).
  assert (a * s_size s <= z * s_size s) by nia.
  assert (c * s_size s <= d * s_size s) by nia.
  assert (d * s_size s <= z * s_size s - a * s_size s) by nia.
  assert ((a + c) * s_size s <= (a + d) * s_size s) by nia.
  unfold av_slice, data_index, umul.
  rewrite !wrap_ok by (unfold usize_limit; lia). simpl.
  rewrite (slice_range_ok v) by lia. eexists. 
  exists (mkSlice (skipn (Z.to_nat ((a + c) * s_size s)) (sl_mem v)) ((a + d) * s_size s - (a + c) * s_size s)).
  split; [reflexivity|]. rewrite slice_range_ok by (simpl; lia). simpl sl_mem.
  rewrite skipn_skipn'. split.
  - do 2 f_equal; [f_equal; lia|lia].
  - rewrite slice_range_ok by lia. reflexivity.
Qed.

(** Release builds: without overflow the check of [at] is exact. *)
Theorem av_at_panics_nowrap b s v i : 0 < s_size s -> slice_ok v -> 0 <= i ->
  av_len s v <= i -> (i + 1) * s_size s < usize_limit -> av_at b s v i = Panic.
Proof.
  intros Hs (Hl & Hm & Hb) Hi Hout Hno. unfold av_at, data_index, umul, uadd, av_len in *.
  assert (Hgt : sl_len v < (i + 1) * s_size s).
  { destruct (Z.ltb_spec (sl_len v) ((i + 1) * s_size s)); auto.
    apply div_lt_mul in H; lia. }
  assert (0 <= i * s_size s) by nia.
  rewrite wrap_ok by lia. simpl. rewrite wrap_ok by lia. simpl.
  now replace (_ <=? _) with false by lia.
Qed.

Theorem av_slice_panics_nowrap b s v lo hi : 0 < s_size s -> slice_ok v ->
  bound_usize lo -> bound_usize hi ->
  ~ (range_lo lo <= range_hi hi (av_len s v) <= av_len s v) ->
  range_lo lo * s_size s < usize_limit -> range_hi hi (av_len s v) * s_size s < usize_limit ->
  av_slice b s v lo hi = Panic.
Proof.
  intros Hs Hv Hlo Hhi Hout H1 H2. pose proof Hv as (Hl & Hm & Hb).
  assert (Hd : forall x y, uadd b x y = wrap_or_panic b (x + y)) by reflexivity.
  assert (Ea : exists a, match lo with
                | Included i => data_index b s i
                | Excluded i => k <- uadd b i 1 ;; data_index b s k
                | Unbounded => Ret 0
                end = Ret a /\ a = range_lo lo * s_size s).
  { destruct lo as [i|i|]; simpl in *; unfold is_usize, usize_limit in *.
    - eexists. unfold data_index, umul. rewrite wrap_ok by (unfold usize_limit; nia). auto.
    - rewrite Hd, wrap_ok by (unfold usize_limit; nia). simpl. eexists.
      unfold data_index, umul. rewrite wrap_ok by (unfold usize_limit; nia). auto.
    - exists 0. auto. }
  destruct Ea as (a & Ea & Ha). unfold av_slice. rewrite Ea. simpl.
  assert (Hlen : av_len s v * s_size s <= sl_len v) by (unfold av_len; pose proof (Z.mul_div_le (sl_len v) (s_size s) Hs); lia).
  assert (H0 : 0 <= av_len s v) by (unfold av_len; apply Z.div_pos; lia).
  assert (Hlt : sl_len v < (av_len s v + 1) * s_size s).
  { unfold av_len. pose proof (Z.mod_pos_bound (sl_len v) (s_size s) Hs).
    pose proof (Z.div_mod (sl_len v) (s_size s) ltac:(lia)). nia. }
  destruct hi as [i|i|]; simpl in *; unfold is_usize, usize_limit in *.
  - rewrite Hd, wrap_ok by (unfold usize_limit; nia). simpl.
    unfold data_index, umul. rewrite wrap_ok by (unfold usize_limit; nia). simpl.
    apply slice_range_panic. intros [? ?]. apply Hout. nia.
  - unfold data_index, umul. rewrite wrap_ok by (unfold usize_limit; nia). simpl.
    apply slice_range_panic. intros [? ?]. apply Hout. nia.
  - apply slice_range_panic. intros [? ?]. apply Hout. nia.
Qed.

(** The overflow: for every element size that is a multiple of four there is
    an index far outside the view that is accepted as index 0. *)
Theorem av_at_release_wraps s v k : s_size s = 4 * k -> 0 < k -> slice_ok v -> 1 <= av_len s v ->
  av_at Release s v (2 ^ 62) = av_at Release s v 0 /\
  (exists m, av_at Release s v (2 ^ 62) = Ret m) /\ av_len s v < 2 ^ 62.
Proof.
  intros Hk Hk0 Hv Hl. assert (Hs : 0 < s_size s) by lia.
  assert (He : av_at Release s v (2 ^ 62) = av_at Release s v 0).
  { unfold av_at. assert (Hd : data_index Release s (2 ^ 62) = Ret 0).
    { unfold data_index, umul, wrap_or_panic.
      replace (2 ^ 62 * s_size s) with (k * usize_limit) by (unfold usize_limit; rewrite Hk; lia).
      replace ((0 <=? k * usize_limit) && (k * usize_limit <? usize_limit)) with false
        by (unfold usize_limit; lia).
      rewrite Z.mod_mul by (unfold usize_limit; lia). reflexivity. }
    rewrite Hd. unfold data_index, umul. rewrite wrap_ok by (unfold usize_limit; lia). reflexivity. }
  split; auto. split.
  - rewrite He. destruct (av_at_ok Release s v 0) as [H _]; auto; [lia|]. eauto.
  - destruct Hv as (Hv1 & Hv2 & _). unfold av_len. apply Z.div_lt_upper_bound; auto.
    unfold isize_max in Hv2. nia.
Qed.

Theorem handle_readable b e s v0 m : wf_struct s -> slice_ok v0 -> handle_inside s v0 m ->
  get_all b e s m = Ret (decode s (firstn (Z.to_nat (s_size s)) m)).
Proof.
  intros Hwf (Hl & Hm & Hb) (p & Hp & Hpl & ->). pose proof Hwf as (Hs & _).
  rewrite get_all_decode; auto using bytes_ok_skipn.
  - rewrite decode_firstn by (auto; lia). reflexivity.
  - rewrite len_skipn by lia. lia.
Qed.

Theorem vec_at_inside b e s n ops i : wf_struct s -> 0 <= n -> n * s_size s + 8 <= isize_max ->
  vec_ops_ok s ops n ->
  let l := fold_left (fun l o => list_step s o l) ops (repeat (zero_record s) (Z.to_nat n)) in
  0 <= i < Z.of_nat (length l) ->
  exists data, obind (vec_with_len b s n) (vec_run b e s ops) = Ret data /\
    (exists m, vec_at b s data i = Ret m /\ shows b e s m (nth (Z.to_nat i) l [])) /\
    vec_at_mut b s data i = Ret (i * s_size s) /\ (i + 1) * s_size s + 8 <= len data.
Proof.
  intros Hwf Hn Hm Hok l Hi. pose proof Hwf as (Hs & _).
  destruct (vec_with_len_ok b s n Hwf Hn Hm) as (d0 & H0 & Hi0).
  destruct (vec_run_refines b e s ops d0 _ Hwf Hi0) as (data & Hrun & Hinv).
  { rewrite repeat_length, Z2Nat.id by lia. auto. }
  fold l in Hinv. exists data. split; [now rewrite H0|].
  destruct (vec_at_ok b e s data l i Hwf Hinv Hi) as (m & Hm1 & Hm2 & _).
  split; [eauto|]. destruct Hinv as (els & -> & Hb & Hl & Hr & Hmax).
  rewrite len_app, len_zeros, Hl in * by lia. unfold isize_max in Hmax.
  split; [|nia]. unfold vec_at_mut, umul. rewrite wrap_ok by (unfold usize_limit; nia). simpl.
  unfold slice_from. rewrite slice_range_ok; [reflexivity| |simpl; lia].
  simpl. rewrite len_app, len_zeros, Hl by lia. nia.
Qed.

(** Facts about the bytes of records. *)
From Verif Require Import Base BaseFacts Codec CodecSpec CodecFacts Structs StructsSpec StructsFacts.
From Verif Require Import Views ViewsSpec ViewsFacts Storage PathFacts StorageSpec Writers WritersSpec.
Local Open Scope list_scope.
Local Open Scope Z_scope.

Lemma apply_sets_length ops : forall r, length (apply_sets ops r) = length r.
Proof. induction ops as [|[i v] ops IH]; intros r; simpl; auto. unfold apply_sets in *. simpl. rewrite IH. apply upd_length. Qed.

Lemma encodes_zero s n : wf_struct s -> n = s_size s -> encodes s (zeros n) (zero_record s).
Proof.
  intros Hwf ->. pose proof Hwf as (Hs & _).
  assert (Hb : forall k, 0 <= k -> bit_at (zeros (s_size s)) k = false).
  { intros k Hk. unfold bit_at. rewrite nth_zeros. apply Z.testbit_0_l. }
  split; [apply bytes_ok_zeros|]. split; [apply len_zeros; lia|].
  split; [apply map_length|]. split; [|auto].
  intros j i Hj Hi. destruct (wf_nth s j Hwf Hj) as (Ho & _). rewrite Hb by lia.
  unfold zero_record. assert (N : nth j (map (fun _ : field => 0) (s_fields s)) 0 = 0).
  { exact (map_nth (fun _ => 0) (s_fields s) default_field j). }
  rewrite N. symmetry. apply Z.testbit_0_l.
Qed.

(** The bytes are determined by the record. *)
Lemma encodes_fun s m m' r : wf_struct s -> encodes s m r -> encodes s m' r -> m = m'.
Proof.
  intros Hwf (B & L & _ & F & Z0) (B' & L' & _ & F' & Z0').
  assert (Hbit : forall k, 0 <= k -> bit_at m k = bit_at m' k).
  { intros k Hk.
    assert (D : (exists j, (j < length (s_fields s))%nat /\ f_off (field_nth s j) <= k < f_off (field_nth s j) + f_bits (field_nth s j)) \/
       (forall j, (j < length (s_fields s))%nat -> k < f_off (field_nth s j) \/ f_off (field_nth s j) + f_bits (field_nth s j) <= k)).
    { generalize (length (s_fields s)). intros n. induction n as [|n IH].
      - right. intros j Hj. lia.
      - destruct IH as [(j & Hj & X)|IH]; [left; exists j; split; [lia|auto]|].
        destruct (Z.lt_ge_cases k (f_off (field_nth s n))) as [H1|H1].
        + right. intros j Hj. destruct (Nat.eq_dec j n) as [->|]; [lia|]. apply IH. lia.
        + destruct (Z.lt_ge_cases k (f_off (field_nth s n) + f_bits (field_nth s n))) as [H2|H2].
          * left. exists n. split; [lia|auto].
          * right. intros j Hj. destruct (Nat.eq_dec j n) as [->|]; [lia|]. apply IH. lia. }
    destruct D as [(j & Hj & Hin)|Hout].
    - replace k with (f_off (field_nth s j) + (k - f_off (field_nth s j))) by lia.
      rewrite F, F'; auto; lia.
    - rewrite Z0, Z0'; auto. }
  apply list_ext_Z; [lia|]. intros i Hi.
  apply Z.bits_inj'. intros n Hn. destruct (Z.lt_ge_cases n 8) as [Hn8|Hn8].
  - specialize (Hbit (8 * i + n) ltac:(lia)). unfold bit_at in Hbit.
    replace ((8 * i + n) / 8) with i in Hbit by (rewrite Z.mul_comm, Z.div_add_l, Z.div_small; lia).
    replace ((8 * i + n) mod 8) with n in Hbit by (rewrite Z.mul_comm, Z.add_comm, Z.mod_add, Z.mod_small; lia).
    exact Hbit.
  - assert (H1 := bytes_ok_nth m (Z.to_nat i) B). assert (H2 := bytes_ok_nth m' (Z.to_nat i) B').
    unfold is_byte in *.
    assert (G : forall x, 0 <= x < 256 -> Z.testbit x n = false).
    { intros x Hx. destruct (Z.eq_dec x 0) as [->|]; [apply Z.testbit_0_l|].
      apply Z.bits_above_log2; [lia|]. apply Z.lt_le_trans with 8; [|lia]. apply Z.log2_lt_pow2; lia. }
    rewrite !G; auto.
Qed.

(** A record and its bytes, also as the getters see it. *)
Definition good (s : sdesc) (m r : list Z) : Prop := encodes s m r /\ decode s m = r.

Lemma good_zero s n : wf_struct s -> n = s_size s -> good s (zeros n) (zero_record s).
Proof. intros H H1. split; [apply encodes_zero; auto|apply decode_zeros; auto]. Qed.

Lemma set_field_good b e s i v m t r : wf_struct s -> (i < length (s_fields s))%nat -> bytes_ok t ->
  in_range (f_prim (field_nth s i)) (f_bits (field_nth s i)) v -> good s m r ->
  exists m', set_field b e s (field_nth s i) v (m ++ t) = Ret (m' ++ t) /\ good s m' (upd i v r).
Proof.
  intros Hwf Hi Ht Hv ((B & L & Lr & F & Z0) & D).
  assert (Bmt : bytes_ok (m ++ t)) by (apply bytes_ok_app; auto).
  pose proof (len_nonneg t). assert (Lmt : s_size s <= len (m ++ t)) by (rewrite len_app; lia).
  pose proof Hwf as (Hs & Hff & Hdis).
  destruct (set_field_decode b e s i v (m ++ t) Hwf Hi Bmt Lmt Hv) as (m1 & E1 & O1 & L1 & D1 & T1 & _).
  destruct (set_field_bits b e s (field_nth s i) v (m ++ t) Bmt (wf_nth s i Hwf Hi) Lmt Hv) as (m2 & E2 & _ & _ & Bits & _).
  rewrite E1 in E2. injection E2 as <-.
  assert (Ht1 : skipn (Z.to_nat (s_size s)) m1 = t).
  { rewrite T1, skipn_app. rewrite skipn_all2 by (unfold len in *; lia).
    replace (Z.to_nat (s_size s) - length m)%nat with 0%nat by (unfold len in *; lia). reflexivity. }
  exists (firstn (Z.to_nat (s_size s)) m1). split.
  { rewrite E1. f_equal. rewrite <- (firstn_skipn (Z.to_nat (s_size s)) m1) at 1. f_equal. exact Ht1. }
  assert (Lf : len (firstn (Z.to_nat (s_size s)) m1) = s_size s) by (apply len_firstn; lia).
  assert (Dec : forall m0, decode s (m ++ m0) = r).
  { intros m0. rewrite <- D. apply decode_ext; auto. intros k Hk. rewrite bit_at_app by lia.
    replace (k <? 8 * len m) with true by lia. auto. }
  split.
  2:{ rewrite decode_firstn by (auto; lia). rewrite D1, Dec. auto. }
  split; [apply bytes_ok_firstn; auto|]. split; auto. split; [rewrite upd_length; auto|].
  assert (Bits' : forall k, 0 <= k < 8 * s_size s -> bit_at (firstn (Z.to_nat (s_size s)) m1) k =
     if (f_off (field_nth s i) <=? k) && (k <? f_off (field_nth s i) + f_bits (field_nth s i))
     then Z.testbit v (k - f_off (field_nth s i)) else bit_at m k).
  { intros k Hk. rewrite bit_at_firstn by lia. rewrite Bits by lia. destruct (_ && _); auto.
    rewrite bit_at_app by lia. replace (k <? 8 * len m) with true by lia. auto. }
  split.
  - intros j x Hj Hx. destruct (wf_nth s j Hwf Hj) as (Hoj & _ & Hinj & _).
    rewrite Bits' by lia. rewrite nth_upd by lia.
    destruct (Nat.eqb_spec i j) as [->|Hne].
    + replace (_ && _) with true by lia. f_equal. lia.
    + specialize (Hdis i j Hi Hj Hne). unfold disjoint in Hdis.
      replace (_ && _) with false by lia. apply F; auto.
  - intros k Hk Hout. destruct (Z.lt_ge_cases k (8 * s_size s)) as [Hlt|Hge].
    + rewrite Bits' by lia. specialize (Hout i Hi) as Hi'.
      replace (_ && _) with false by lia. apply Z0; auto.
    + unfold bit_at. rewrite nth_overflow; [apply Z.testbit_0_l|].
      assert (s_size s <= k / 8) by (apply Z.div_le_lower_bound; lia). unfold len in Lf. lia.
Qed.

Lemma run_sets_good b e s sets : wf_struct s -> sets_ok s sets -> forall m t r, bytes_ok t -> good s m r ->
  exists m', run_sets b e s sets (m ++ t) = Ret (m' ++ t) /\ good s m' (apply_sets sets r).
Proof.
  intros Hwf Hok. induction Hok as [|[i v] sets [Hi Hv] Hok IH]; intros m t r Ht G; simpl.
  - eauto.
  - destruct (set_field_good b e s i v m t r) as (m1 & -> & G1); auto. simpl.
    destruct (IH m1 t _ Ht G1) as (m2 & -> & G2). eauto.
Qed.

Lemma handle_good b e s sets pre mid post r : wf_struct s -> sets_ok s sets -> bytes_ok post -> good s mid r ->
  exists mid', through_handle b e s sets (pre ++ mid ++ post) (len pre) = Ret (pre ++ mid' ++ post) /\
    good s mid' (apply_sets sets r).
Proof.
  intros Hwf Hs Hp G. unfold through_handle.
  replace (Z.to_nat (len pre)) with (length pre) by (unfold len; lia).
  rewrite skipn_app, Nat.sub_diag, skipn_all. simpl app.
  rewrite firstn_app, Nat.sub_diag, firstn_all. simpl firstn. rewrite app_nil_r.
  change (skipn 0 (mid ++ post)) with (mid ++ post).
  destruct (run_sets_good b e s sets Hwf Hs mid post r Hp G) as (m' & -> & G'). simpl. eauto.
Qed.

Lemma good_bytes s m r : good s m r -> bytes_ok m.
Proof. intros ((B & _) & _). auto. Qed.
Lemma good_len s m r : good s m r -> len m = s_size s.
Proof. intros ((_ & L & _) & _). auto. Qed.

(** * Arrays *)
Definition goods (s : sdesc) (ms l : list (list Z)) : Prop := Forall2 (good s) ms l.

Lemma goods_encodes s ms l : goods s ms l -> Forall2 (encodes s) ms l.
Proof. induction 1 as [|m r ms l (H & _) _ IH]; constructor; auto. Qed.

Lemma goods_bytes s ms l : goods s ms l -> bytes_ok (concat ms).
Proof.
  induction 1 as [|m r ms l G _ IH]; simpl; [constructor|]. apply bytes_ok_app. split; auto. eapply good_bytes; eauto.
Qed.

Lemma goods_len s ms l : goods s ms l -> len (concat ms) = Z.of_nat (length l) * s_size s.
Proof.
  induction 1 as [|m r ms l G _ IH]; [reflexivity|]. cbn [concat]. rewrite len_app, IH, (good_len _ _ _ G). simpl length. lia.
Qed.

Lemma goods_records s ms l : wf_struct s -> goods s ms l -> records s (concat ms) = l.
Proof.
  intros Hwf. pose proof Hwf as (Hs & _).
  induction 1 as [|m r ms l G Gs IH]; [apply records_nil|]. cbn [concat].
  rewrite (records_app s m 1) by (auto; try lia; rewrite (good_len _ _ _ G); lia).
  rewrite records_single by (auto; apply (good_len _ _ _ G)). rewrite IH.
  destruct G as (_ & ->). auto.
Qed.

Lemma goods_snoc s ms l m r : goods s ms l -> good s m r -> goods s (ms ++ [m]) (l ++ [r]).
Proof. intros H G. apply Forall2_app; auto. Qed.

Lemma concat_snoc {A} (ms : list (list A)) m : concat (ms ++ [m]) = concat ms ++ m.
Proof. rewrite concat_app. simpl. rewrite app_nil_r. auto. Qed.

Lemma array_fun s a a' l : wf_struct s -> array_of s a l -> array_of s a' l -> a = a'.
Proof.
  intros Hwf (ms & -> & F) (ms' & -> & F'). f_equal. revert ms' F'.
  induction F as [|m r ms l E F IH]; intros ms' F'; inversion F'; subst; auto.
  f_equal; auto. eapply encodes_fun; eauto.
Qed.

(** Growing: room for one more element in front of the padding. *)
Lemma resize_grow rest n : 0 <= n -> len rest + 8 + n <= isize_max ->
  vec_resize (rest ++ zeros 8) (len rest + 8 + n) = Ret (rest ++ zeros n ++ zeros 8).
Proof.
  intros Hn Hm. unfold vec_resize. replace (_ <=? _) with true by lia. f_equal.
  rewrite firstn_le by (rewrite app_length; unfold len in *; unfold zeros; rewrite repeat_length; lia).
  rewrite <- app_assoc. f_equal. rewrite len_app, len_zeros by lia. rewrite !zeros_app by lia. f_equal. lia.
Qed.

(** * Vector, with its bytes *)
Definition vec_state (s : sdesc) (data : list Z) (l : list (list Z)) : Prop :=
  exists ms, data = concat ms ++ zeros 8 /\ goods s ms l.

Lemma vec_state_inv s data l : wf_struct s -> len data <= isize_max -> vec_state s data l -> vec_inv s data l.
Proof.
  intros Hwf H (ms & -> & G). exists (concat ms). split; auto. split; [eapply goods_bytes; eauto|].
  split; [apply goods_len; auto|]. split; [apply goods_records; auto|auto].
Qed.

Lemma Forall2_split_nth {A B} (R : A -> B -> Prop) (a : list A) (l : list B) i : Forall2 R a l -> (i < length l)%nat ->
  exists a1 x a2 l1 y l2, a = a1 ++ x :: a2 /\ l = l1 ++ y :: l2 /\ length l1 = i /\
    Forall2 R a1 l1 /\ R x y /\ Forall2 R a2 l2.
Proof.
  intros F. revert i. induction F as [|x y a l H F IH]; intros i Hi; [simpl in Hi; lia|].
  destruct i as [|i].
  - exists [], x, a, [], y, l. repeat split; auto.
  - destruct (IH i ltac:(simpl in Hi; lia)) as (a1 & x1 & a2 & l1 & y1 & l2 & -> & -> & H1 & H2 & H3 & H4).
    exists (x :: a1), x1, a2, (y :: l1), y1, l2. repeat split; simpl; auto.
Qed.

Lemma vec_step_state b e s o data l : wf_struct s -> vec_state s data l -> len data <= isize_max ->
  vec_ops_ok s [o] (Z.of_nat (length l)) ->
  exists data', vec_step b e s o data = Ret data' /\ vec_state s data' (list_step s o l) /\ len data' <= isize_max.
Proof.
  intros Hwf St Hm Hok. pose proof Hwf as (Hs & _).
  destruct (vec_run_refines b e s [o] data l Hwf (vec_state_inv _ _ _ Hwf Hm St) Hok) as (d1 & R1 & I1).
  cbn [vec_run] in R1. simpl fold_left in I1.
  destruct (vec_step b e s o data) as [d| | |] eqn:Es; try discriminate. simpl in R1. injection R1 as ->.
  exists d1. split; auto. destruct I1 as (_ & _ & _ & _ & _ & Lm). split; auto.
  destruct St as (ms & -> & G).
  destruct o as [sets|i sets|a]; simpl in Hok; simpl in Es; simpl list_step.
  - destruct Hok as (Hsets & Hmax & _).
    destruct (vec_grow_ok b s (concat ms ++ zeros 8) l Hwf) as (d2 & Eg & _); auto.
    { apply vec_state_inv; auto. exists ms. auto. }
    assert (Hd2 : d2 = concat ms ++ zeros (s_size s) ++ zeros 8).
    { unfold vec_grow, uadd in Eg. rewrite len_app, len_zeros in Eg by lia.
      rewrite (goods_len _ _ _ G) in Eg. assert (0 <= Z.of_nat (length l) * s_size s) by nia. unfold isize_max in Hmax.
      rewrite wrap_ok in Eg by (unfold usize_limit; lia). simpl in Eg.
      rewrite <- (goods_len _ _ _ G) in Eg. rewrite resize_grow in Eg;
        [|lia|rewrite (goods_len _ _ _ G); unfold isize_max; lia].
      simpl in Eg. destruct (vec_len b s _); try discriminate. simpl in Eg.
      destruct (usub b _ _); try discriminate. simpl in Eg. destruct (umul b _ _); try discriminate. simpl in Eg.
      destruct (slice_from _ _); try discriminate. simpl in Eg. injection Eg as <- _. auto. }
    rewrite Eg in Es. simpl in Es. rewrite <- (goods_len _ _ _ G) in Es. subst d2.
    destruct (handle_good b e s sets (concat ms) (zeros (s_size s)) (zeros 8) (zero_record s)) as (m' & E' & G');
      auto using bytes_ok_zeros, good_zero.
    rewrite E' in Es. injection Es as <-. exists (ms ++ [m']). split.
    + rewrite concat_snoc, <- app_assoc. auto.
    + apply goods_snoc; auto.
  - destruct Hok as (Hi & Hsets & _).
    destruct (vec_at_mut b s (concat ms ++ zeros 8) i) as [p| | |] eqn:Ep; try discriminate. simpl in Es.
    assert (p = i * s_size s) as ->.
    { unfold vec_at_mut, umul in Ep. rewrite len_app, (goods_len _ _ _ G), len_zeros in Hm by lia.
      unfold isize_max in Hm. rewrite wrap_ok in Ep by (unfold usize_limit; nia). simpl in Ep.
      destruct (slice_from _ _); try discriminate. injection Ep as ->. auto. }
    destruct (Forall2_split_nth _ _ _ (Z.to_nat i) G ltac:(lia)) as (a1 & x & a2 & l1 & y & l2 & -> & -> & H1 & H2 & H3 & H4).
    assert (Hp : i * s_size s = len (concat a1)) by (rewrite (goods_len _ _ _ H2); nia).
    rewrite Hp in Es. rewrite concat_app in Es. cbn [concat] in Es. rewrite <- !app_assoc in Es.
    destruct (handle_good b e s sets (concat a1) x (concat a2 ++ zeros 8) y) as (m' & E' & G'); auto.
    { apply bytes_ok_app. split; [eapply goods_bytes; eauto|apply bytes_ok_zeros]. }
    rewrite E' in Es. injection Es as <-. exists (a1 ++ m' :: a2). split.
    + rewrite concat_app. cbn [concat]. rewrite <- !app_assoc. auto.
    + rewrite <- H1, updl_app. apply Forall2_app; auto.
  - unfold vec_reserve in Es. destruct (vec_len b s _); try discriminate. simpl in Es.
    destruct (uadd b _ _); try discriminate. simpl in Es.
    destruct (calc_size b s _); try discriminate. simpl in Es.
    destruct (vec_size_in_bytes b _); try discriminate. simpl in Es.
    destruct (usub b _ _); try discriminate. simpl in Es.
    destruct (_ <=? _); try discriminate. injection Es as <-. exists ms. auto.
Qed.

Lemma vec_ops_cons s o ops n : vec_ops_ok s (o :: ops) n ->
  vec_ops_ok s [o] n /\ vec_ops_ok s ops (match o with VGrow _ => n + 1 | _ => n end).
Proof. destruct o; simpl; intuition. Qed.

Lemma vec_run_state b e s ops : wf_struct s -> forall data l, vec_state s data l -> len data <= isize_max ->
  vec_ops_ok s ops (Z.of_nat (length l)) ->
  exists data', vec_run b e s ops data = Ret data' /\ vec_state s data' (fold_left (fun l o => list_step s o l) ops l) /\
    len data' <= isize_max.
Proof.
  intros Hwf. induction ops as [|o ops IH]; intros data l St Hm Hok.
  - simpl. eauto.
  - apply vec_ops_cons in Hok. destruct Hok as (H1 & H2).
    destruct (vec_step_state b e s o data l Hwf St Hm H1) as (d1 & E1 & S1 & M1). cbn [vec_run fold_left]. rewrite E1. simpl.
    apply IH; auto. destruct o; simpl list_step; [|rewrite updl_length; auto|auto].
    rewrite app_length. simpl length. replace (Z.of_nat (length l + 1)) with (Z.of_nat (length l) + 1) by lia. auto.
Qed.

Lemma vec_state_start s : vec_state s (zeros 8) [].
Proof. exists []. split; auto. constructor. Qed.

Lemma vec_with_len_state b s n data : wf_struct s -> 0 <= n -> n * s_size s + 8 <= isize_max ->
  vec_with_len b s n = Ret data ->
  vec_state s data (repeat (zero_record s) (Z.to_nat n)) /\ len data <= isize_max.
Proof.
  intros Hwf Hn Hm E. pose proof Hwf as (Hs & _). assert (Hnn : 0 <= n * s_size s) by nia.
  unfold vec_with_len, calc_size, umul, uadd, isize_max in *. rewrite wrap_ok in E by (unfold usize_limit; lia).
  simpl in E. rewrite wrap_ok in E by (unfold usize_limit, PADDING_SIZE; lia). simpl in E.
  unfold vec_resize, PADDING_SIZE, isize_max in E. rewrite len_nil in E.
  replace (_ <=? _) with true in E by lia. rewrite firstn_nil, Z.sub_0_r in E. simpl app in E. injection E as <-.
  split; [|rewrite len_zeros by lia; unfold isize_max; lia].
  exists (repeat (zeros (s_size s)) (Z.to_nat n)). split.
  - rewrite <- zeros_app by lia. f_equal.
    replace n with (Z.of_nat (Z.to_nat n)) at 1 by lia. clear Hm Hnn Hn.
    induction (Z.to_nat n) as [|k IH]; [reflexivity|].
    replace (Z.of_nat (S k) * s_size s) with (s_size s + Z.of_nat k * s_size s) by lia.
    rewrite <- zeros_app by lia. simpl. f_equal. auto.
  - induction (Z.to_nat n); simpl; constructor; auto using good_zero.
Qed.

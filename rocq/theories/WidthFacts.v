(** Proofs about Width.v. *)
From Verif Require Import Base BaseFacts Codec CodecSpec CodecFacts Structs StructsSpec StructsFacts.
From Verif Require Import Views ViewsSpec ViewsFacts Storage StorageSpec StorageFacts.
From Verif Require Import Writers WritersSpec MultiViews MultiSpec MultiViewFacts MultiViewUse Width.
Local Open Scope list_scope.
Local Open Scope Z_scope.

Lemma pow_w W : 8 <= W <= 64 -> 256 <= 2 ^ W <= 2 ^ 64 /\ 2 ^ W = 2 * 2 ^ (W - 1).
Proof.
  intros H. split.
  - split; [change 256 with (2 ^ 8)|]; apply Z.pow_le_mono_r; lia.
  - rewrite <- Z.pow_succ_r by lia. f_equal. lia.
Qed.

Lemma wrap_w_ok W b x : 0 <= x < 2 ^ W -> wrap_w W b x = Ret x.
Proof.
  intros H. unfold wrap_w. destruct (0 <=? x) eqn:E1, (x <? 2 ^ W) eqn:E2; simpl; auto; lia.
Qed.

Lemma wrap_w_64 b x : wrap_w 64 b x = wrap_or_panic b x.
Proof. reflexivity. Qed.

(** The checks on the two byte strings, once and for all. *)
Definition tail_w (name : string) (expected c sc : list Z) (s : Z) : result slice rs_error :=
  if negb (utf8_ok sc) then Er EUtf8
  else if negb (bytes_eqb sc expected) then Er (EWrongSignature name)
  else Ok (mkSlice (skipn 8 c) s).
Definition check_w (W : Z) (b : build) (name : string) (expected c sc : list Z) : outcome (result slice rs_error) :=
  if len c <? 16 then Ret (Er EUnexpectedDataSize)
  else let s := header c mod 2 ^ W in
    if s + 16 =? len c then Ret (tail_w name expected c sc s)
    else match b with
         | Debug => if 2 ^ W <=? s + 16 then Panic else Ret (Er EUnexpectedDataSize)
         | Release => Ret (Er EUnexpectedDataSize)
         end.

Lemma check_w_ok W b e name expected c sc :
  8 <= W <= 64 -> bytes_ok c -> len c <= 2 ^ (W - 1) - 1 ->
  check_resource_w W b e name expected (whole c) (whole sc) = check_w W b name expected c sc.
Proof.
  intros HW B L. destruct (pow_w W HW) as (P1 & P2). unfold check_resource_w, check_w.
  change (sl_len (whole c)) with (len c). change (sl_mem (whole c)) with c.
  change (SIZE_OF_SIZE_TYPE + PADDING_SIZE) with 16. pose proof (len_nonneg c) as Lc.
  destruct (len c <? 16) eqn:E16; [reflexivity|].
  rewrite read_size by (auto; lia). assert (HR := header_range c B ltac:(lia)). cbn [omap obind].
  unfold as_usize. cbv zeta. assert (HS := Z.mod_pos_bound (header c) (2 ^ W) ltac:(lia)).
  set (s := header c mod 2 ^ W) in *. clearbody s. unfold uadd_w, SIZE_OF_SIZE_TYPE, PADDING_SIZE.
  destruct (s + 16 =? len c) eqn:Et.
  { rewrite wrap_w_ok by lia. cbn [obind]. rewrite wrap_w_ok by lia. cbn [obind].
    destruct (s + 8 + 8 =? len c) eqn:E2; [|lia]. cbn [negb]. rewrite sl_bytes_whole. unfold tail_w.
    destruct (utf8_ok sc); [|reflexivity]. cbn [negb]. destruct (bytes_eqb sc expected); [|reflexivity]. cbn [negb].
    unfold slice_from. change (sl_len (whole c)) with (len c).
    rewrite slice_range_ok by (simpl; lia). cbn [obind].
    rewrite slice_range_ok by (simpl; lia). cbn [obind sl_mem whole]. change (Z.to_nat 0) with 0%nat. change (Z.to_nat 8) with 8%nat.
    rewrite skipn_O. replace (s - 0) with s by lia. reflexivity. }
  destruct (Z_lt_dec (s + 16) (2 ^ W)) as [Small|Big].
  - rewrite wrap_w_ok by lia. cbn [obind]. rewrite wrap_w_ok by lia. cbn [obind].
    destruct (s + 8 + 8 =? len c) eqn:E2; [lia|]. cbn [negb].
    destruct (2 ^ W <=? s + 16) eqn:E3; [lia|]. destruct b; reflexivity.
  - destruct (2 ^ W <=? s + 16) eqn:E3; [|lia]. destruct b.
    + unfold wrap_w. destruct ((0 <=? s + 8) && (s + 8 <? 2 ^ W)) eqn:E1; cbn [obind]; [|reflexivity].
      destruct ((0 <=? s + 8 + 8) && (s + 8 + 8 <? 2 ^ W)) eqn:E2; [lia|reflexivity].
    + unfold wrap_w. destruct ((0 <=? s + 8) && (s + 8 <? 2 ^ W)) eqn:E1; cbn [obind].
      * destruct ((0 <=? s + 8 + 8) && (s + 8 + 8 <? 2 ^ W)) eqn:E2; [lia|]. cbn [obind].
        replace (s + 8 + 8) with (s + 8 + 8 - 2 ^ W + 1 * 2 ^ W) by lia.
        rewrite Z.mod_add by lia. rewrite Z.mod_small by lia.
        destruct (s + 8 + 8 - 2 ^ W =? len c) eqn:E4; [lia|reflexivity].
      * replace (s + 8) with (s + 8 - 2 ^ W + 1 * 2 ^ W) by lia.
        rewrite Z.mod_add by lia. rewrite Z.mod_small by lia.
        destruct ((0 <=? s + 8 - 2 ^ W + 8) && (s + 8 - 2 ^ W + 8 <? 2 ^ W)) eqn:E2; [|lia]. cbn [obind].
        destruct (s + 8 - 2 ^ W + 8 =? len c) eqn:E4; [lia|reflexivity].
Qed.

Lemma check_64 b e name expected c sc : bytes_ok c ->
  check_resource_w 64 b e name expected (whole c) sc = check_resource b e name expected (whole c) sc.
Proof.
  intros B. unfold check_resource_w, check_resource.
  change (sl_len (whole c)) with (len c). change (sl_mem (whole c)) with c.
  change (SIZE_OF_SIZE_TYPE + PADDING_SIZE) with 16.
  destruct (len c <? 16) eqn:E16; [reflexivity|].
  rewrite read_size by (auto; lia). assert (HR := header_range c B ltac:(lia)). cbn [omap obind].
  unfold as_usize. rewrite Z.mod_small by lia. reflexivity.
Qed.

Lemma check_exact W b e name expected c sc D :
  8 <= W <= 64 -> bytes_ok c -> len c <= 2 ^ (W - 1) - 1 ->
  ((exists d, check_resource_w W b e name expected (whole c) (whole sc) = Ret (Ok d) /\ sl_bytes d = D) <->
   utf8_ok sc = true /\ sc = expected /\ exists h pad, c = le_bytes 8 h ++ D ++ pad /\
     len pad = 8 /\ 0 <= h < 2 ^ 64 /\ h mod 2 ^ W = len D).
Proof.
  intros HW B L. destruct (pow_w W HW) as (P1 & P2). rewrite check_w_ok by auto. unfold check_w. pose proof (len_nonneg c) as Lc.
  split.
  - intros (d & E & <-). revert E. destruct (len c <? 16) eqn:E16; [discriminate|]. cbv zeta.
    assert (HR := header_range c B ltac:(lia)).
    assert (HS := Z.mod_pos_bound (header c) (2 ^ W) ltac:(lia)). set (s := header c mod 2 ^ W) in *.
    destruct (s + 16 =? len c) eqn:Et.
    2:{ destruct b; [destruct (2 ^ W <=? s + 16)|]; discriminate. }
    unfold tail_w. destruct (utf8_ok sc) eqn:U; [|discriminate]. cbn [negb].
    destruct (bytes_eqb sc expected) eqn:Q; [|discriminate]. cbn [negb]. intros E.
    assert (d = mkSlice (skipn 8 c) s) as -> by congruence. clear E. apply bytes_eqb_eq in Q. split; auto. split; auto. unfold sl_bytes. cbn [sl_len sl_mem].
    exists (header c), (skipn (Z.to_nat s) (skipn 8 c)).
    assert (L1 : len (skipn 8 c) = s + 8) by (unfold len; rewrite skipn_length; unfold len in *; lia).
    rewrite firstn_skipn. split.
    { unfold header. replace 8%nat with (length (firstn 8 c)) at 1.
      - rewrite le_bytes_val by (apply bytes_ok_firstn; auto). symmetry. apply firstn_skipn.
      - rewrite firstn_length. unfold len in *. lia. }
    split; [rewrite len_skipn by lia; lia|]. split; [lia|]. rewrite len_firstn by lia. reflexivity.
  - intros (U & -> & h & pad & Ec & Lp & Hh & Hm). unfold tail_w. rewrite U. cbn [negb].
    assert (Hc : header c = h).
    { unfold header. rewrite Ec. rewrite firstn_app. rewrite le_bytes_length. change (8 - 8)%nat with 0%nat. rewrite firstn_O, app_nil_r.
      rewrite firstn_all2 by (rewrite le_bytes_length; lia). rewrite le_val_bytes. change (8 * Z.of_nat 8) with 64. apply Z.mod_small. lia. }
    assert (Ll : len c = 16 + len D).
    { rewrite Ec. rewrite !len_app. unfold len at 1. rewrite le_bytes_length. lia. }
    pose proof (len_nonneg D). destruct (len c <? 16) eqn:E16; [lia|]. cbv zeta. rewrite Hc, Hm.
    destruct (len D + 16 =? len c) eqn:E; [|lia]. destruct (bytes_eqb expected expected) eqn:Q.
    2:{ assert (bytes_eqb expected expected = true) by (apply bytes_eqb_eq; auto). congruence. }
    cbn [negb]. eexists. split; [reflexivity|]. unfold sl_bytes. cbn [sl_len sl_mem]. rewrite Ec.
    rewrite skipn_app, le_bytes_length. change (8 - 8)%nat with 0%nat. rewrite skipn_O.
    rewrite skipn_all2 by (rewrite le_bytes_length; lia). cbn [app]. unfold len. rewrite Nat2Z.id.
    rewrite firstn_app, firstn_all, Nat.sub_diag, firstn_O, app_nil_r. reflexivity.
Qed.

Lemma check_portable W b e name expected c sc :
  8 <= W <= 64 -> bytes_ok c -> len c <= 2 ^ (W - 1) - 1 -> (16 <= len c -> header c + 16 < 2 ^ W) ->
  check_resource_w W b e name expected (whole c) (whole sc) = check_resource b e name expected (whole c) (whole sc).
Proof.
  intros HW B L H. destruct (pow_w W HW) as (P1 & P2). rewrite <- check_64 by auto.
  assert (2 ^ (W - 1) <= 2 ^ (64 - 1)) by (apply Z.pow_le_mono_r; lia).
  rewrite !check_w_ok by (auto; lia). unfold check_w. destruct (len c <? 16) eqn:E; [reflexivity|]. cbv zeta.
  assert (HR := header_range c B ltac:(lia)). specialize (H ltac:(lia)).
  rewrite !Z.mod_small by lia. destruct (header c + 16 =? len c); [reflexivity|]. destruct b; [|reflexivity].
  destruct (2 ^ W <=? header c + 16) eqn:E1; [lia|]. destruct (2 ^ 64 <=? header c + 16) eqn:E2; [lia|]. reflexivity.
Qed.

Lemma check_keeps W b e name expected c sc d :
  8 <= W <= 64 -> bytes_ok c -> len c <= 2 ^ (W - 1) - 1 ->
  check_resource b e name expected (whole c) (whole sc) = Ret (Ok d) ->
  check_resource_w W b e name expected (whole c) (whole sc) = Ret (Ok d).
Proof.
  intros HW B L E. destruct (pow_w W HW) as (P1 & P2). rewrite <- E. apply check_portable; auto. intros L16.
  assert (2 ^ (W - 1) <= 2 ^ (64 - 1)) by (apply Z.pow_le_mono_r; lia).
  rewrite <- check_64, check_w_ok in E by (auto; lia). unfold check_w in E. revert E.
  destruct (len c <? 16) eqn:E16; [lia|]. cbv zeta. assert (HR := header_range c B ltac:(lia)).
  rewrite Z.mod_small by lia. destruct (header c + 16 =? len c) eqn:Et; [intros _; lia|].
  destruct b; [destruct (2 ^ 64 <=? header c + 16)|]; discriminate.
Qed.

(** * Multi-arrays *)
Section Multi.
Variables (W : Z) (b : build) (e : endian) (size bits : Z).
Hypothesis HW : 8 <= W <= 64.
Hypothesis Hwf : wf_struct (index_struct size bits).
Let is := index_struct size bits.

Lemma index_at_w v i : slice_ok (ma_index v) -> sl_len (ma_index v) <= 2 ^ (W - 1) - 1 ->
  0 <= i < Z.of_nat (length (offsets size bits v)) ->
  mav_index_at_w W b e size bits v i = Ret (nth (Z.to_nat i) (offsets size bits v) 0 mod 2 ^ W).
Proof.
  intros Hv L Hi. destruct (pow_w W HW) as (P1 & P2).
  assert (E := mav_index_at_ok b e size bits Hwf v i Hv Hi).
  unfold mav_index_at_w. unfold mav_index_at in E.
  assert (A : av_at_w W b is (ma_index v) i = av_at b is (ma_index v) i).
  { assert (Hs : 0 < s_size is) by (destruct Hwf; auto).
    assert (Hn : Z.of_nat (length (offsets size bits v)) = sl_len (ma_index v) / s_size is).
    { unfold offsets. rewrite map_length. fold is. destruct Hv as (V1 & V2 & V3).
      unfold records. rewrite map_length, seq_length. unfold sl_bytes. rewrite len_firstn by lia.
      apply Z2Nat.id. apply Z.div_pos; lia. }
    assert (Hd := Z.mul_div_le (sl_len (ma_index v)) (s_size is) Hs).
    assert ((i + 1) * s_size is <= sl_len (ma_index v)) by (rewrite Hn in Hi; nia).
    unfold av_at_w, av_at, data_index, umul_w, uadd_w, umul, uadd.
    rewrite wrap_w_ok by nia. rewrite wrap_ok by (unfold usize_limit; nia). cbn [obind].
    rewrite wrap_w_ok by nia. rewrite wrap_ok by (unfold usize_limit; nia). reflexivity. }
  fold is. rewrite A. fold is in E. destruct (av_at b is (ma_index v) i); cbn [obind] in *; try discriminate.
  rewrite E. reflexivity.
Qed.

Lemma at_w v i : mav_ok v -> sl_len (ma_index v) <= 2 ^ (W - 1) - 1 ->
  0 <= i < Z.of_nat (length (pairs (offsets size bits v))) ->
  let p := nth (Z.to_nat i) (pairs (offsets size bits v)) (0, 0) in
  mav_at_w W b e size bits v i = between (ma_data v) (fst p mod 2 ^ W, snd p mod 2 ^ W).
Proof.
  intros (Hv & _) L Hi. cbv zeta. destruct (pow_w W HW) as (P1 & P2). rewrite pairs_length in Hi.
  unfold mav_at_w. rewrite index_at_w by (auto; lia). cbn [obind]. unfold uadd_w.
  assert (Hs : 0 < s_size is) by (destruct Hwf; auto).
  assert (Hn : Z.of_nat (length (offsets size bits v)) <= sl_len (ma_index v)).
  { unfold offsets. rewrite map_length. fold is. destruct Hv as (V1 & V2 & V3).
    unfold records. rewrite map_length, seq_length. unfold sl_bytes. rewrite len_firstn by lia.
    rewrite Z2Nat.id by (apply Z.div_pos; lia). apply Z.div_le_upper_bound; [lia|nia]. }
  rewrite wrap_w_ok by lia. cbn [obind]. rewrite index_at_w by (auto; lia). cbn [obind].
  rewrite pairs_nth by lia. unfold between. cbn [fst snd]. do 3 f_equal. lia.
Qed.

Lemma at_portable v i : mav_ok v -> sl_len (ma_index v) <= 2 ^ (W - 1) - 1 ->
  0 <= i < Z.of_nat (length (pairs (offsets size bits v))) ->
  Forall (fun x => 0 <= x < 2 ^ W) (offsets size bits v) ->
  mav_at_w W b e size bits v i = mav_at b e size bits v i.
Proof.
  intros Hv L Hi F. rewrite at_w by auto. rewrite mav_at_ok by auto. rewrite pairs_length in Hi.
  rewrite pairs_nth by lia. cbn [fst snd]. rewrite Forall_forall in F.
  rewrite !Z.mod_small; [reflexivity| |]; apply F, nth_In; lia.
Qed.

Lemma at_shows ts v l i : mav_shows ts size bits v l -> sl_len (ma_index v) <= 2 ^ (W - 1) - 1 ->
  sl_len (ma_data v) <= 2 ^ (W - 1) - 1 -> 0 <= i < Z.of_nat (length l) ->
  mav_at_w W b e size bits v i = mav_at b e size bits v i.
Proof.
  intros (Hv & Hn & F) L1 L2 Hi. destruct (pow_w W HW) as (P1 & P2).
  assert (Ln : length (pairs (offsets size bits v)) = length l) by (eapply Forall2_length; eauto).
  rewrite at_w by (auto; lia). rewrite mav_at_ok by (auto; lia). set (p := nth _ _ _).
  assert (Hp : 0 <= fst p <= snd p /\ snd p <= sl_len (ma_data v)).
  { assert (Hi' : (Z.to_nat i < length (pairs (offsets size bits v)))%nat) by lia. subst p. revert F Hi'. clear.
    intros F. generalize (Z.to_nat i). induction F as [|x y r r' H F IH]; intros k Hk; [simpl in Hk; lia|].
    destruct k; [simpl; tauto|]. apply IH. simpl in Hk. lia. }
  rewrite !Z.mod_small by lia. destruct p; reflexivity.
Qed.
End Multi.

(** Views and vectors in memory on a target of any width do what they do on a
    64-bit target, as long as nothing overflows. *)
From Verif Require Import Base BaseFacts Codec CodecSpec CodecFacts Structs StructsSpec StructsFacts.
From Verif Require Import Views ViewsSpec ViewsFacts ViewsExact ViewsLimit Storage Writers WritersSpec MultiViews MultiSpec MultiViewFacts.
From Verif Require Import ProfileSpec ProfileFacts Width WidthFacts WidthVectors WidthMemory.
Local Open Scope list_scope.
Local Open Scope Z_scope.

Lemma pow_1 W : 1 <= W <= 64 -> 2 <= 2 ^ W <= 2 ^ 64 /\ 2 ^ W = 2 * 2 ^ (W - 1) /\ 1 <= 2 ^ (W - 1) <= 2 ^ 63.
Proof.
  intros H. split; [|split].
  - split; [change 2 with (2 ^ 1) at 1|]; apply Z.pow_le_mono_r; lia.
  - rewrite <- Z.pow_succ_r by lia. f_equal. lia.
  - split; [change 1 with (2 ^ 0) at 1|]; apply Z.pow_le_mono_r; lia.
Qed.

(** * Sixty-four bits *)
Lemma view_calls_64 b s calls : forall v, view_calls_w 64 b s calls v = view_calls b s calls v.
Proof. induction calls as [|c r IH]; intros v; [reflexivity|]. cbn [view_calls view_calls_w]. destruct c; reflexivity. Qed.
Lemma vec_run_64 b e s ops : forall data, vec_run_w 64 b e s ops data = vec_run b e s ops data.
Proof. induction ops as [|c r IH]; intros data; [reflexivity|]. cbn [vec_run vec_run_w]. destruct c; reflexivity. Qed.
Lemma with_len_64 b s n : vec_with_len_w 64 b s n = vec_with_len b s n.
Proof. reflexivity. Qed.

Section Width.
Variable W : Z.
Hypothesis HW : 1 <= W <= 64.

(** * The release build of the target *)
Lemma wa_wrap x : agrees (wrap_w W Debug x) (wrap_w W Release x).
Proof. unfold wrap_w. destruct (_ && _); [right|left]; reflexivity. Qed.
Lemma wa_uadd x y : agrees (uadd_w W Debug x y) (uadd_w W Release x y).
Proof. apply wa_wrap. Qed.
Lemma wa_usub x y : agrees (usub_w W Debug x y) (usub_w W Release x y).
Proof. apply wa_wrap. Qed.
Lemma wa_umul x y : agrees (umul_w W Debug x y) (umul_w W Release x y).
Proof. apply wa_wrap. Qed.
#[local] Hint Resolve wa_uadd wa_usub wa_umul agrees_get_field agrees_run_sets : profile.
Lemma wa_at s v i : agrees (av_at_w W Debug s v i) (av_at_w W Release s v i).
Proof. unfold av_at_w. agree. Qed.
Lemma wa_slice s v lo hi : agrees (av_slice_w W Debug s v lo hi) (av_slice_w W Release s v lo hi).
Proof. unfold av_slice_w. agree. Qed.
#[local] Hint Resolve wa_at wa_slice : profile.
Lemma wa_step s c v : agrees (view_step_w W Debug s c v) (view_step_w W Release s c v).
Proof. destruct c; cbn [view_step_w]; unfold av_next_w, av_next_back_w; agree. Qed.
#[local] Hint Resolve wa_step : profile.
Lemma wa_calls s calls : forall v, agrees (view_calls_w W Debug s calls v) (view_calls_w W Release s calls v).
Proof. induction calls as [|c r IH]; intros v; cbn [view_calls_w]; agree. Qed.

Lemma wa_index e size bits v i : agrees (mav_index_at_w W Debug e size bits v i) (mav_index_at_w W Release e size bits v i).
Proof.
  unfold mav_index_at_w. apply agrees_bind; [apply wa_at|]. intros m. unfold get_index.
  destruct (agrees_get_field e (mkField U64 0 bits) m) as [E|E]; rewrite E; [left|right]; reflexivity.
Qed.
#[local] Hint Resolve wa_index : profile.
Lemma wa_mav_at e size bits v i : agrees (mav_at_w W Debug e size bits v i) (mav_at_w W Release e size bits v i).
Proof. unfold mav_at_w. agree. Qed.
Lemma wa_mav_slice size bits v lo hi : agrees (mav_slice_w W Debug size bits v lo hi) (mav_slice_w W Release size bits v lo hi).
Proof. unfold mav_slice_w. agree. Qed.
#[local] Hint Resolve wa_mav_at wa_mav_slice : profile.
Lemma wa_mav_len size bits v : agrees (mav_len_w W Debug size bits v) (mav_len_w W Release size bits v).
Proof. unfold mav_len_w. agree. Qed.
#[local] Hint Resolve wa_mav_len : profile.
Lemma wa_mav_step e size bits c v : agrees (mav_step_w W Debug e size bits c v) (mav_step_w W Release e size bits c v).
Proof. destruct c; cbn [mav_step_w]; unfold mav_next_w, mav_next_back_w, mav_is_empty_w; agree. Qed.
#[local] Hint Resolve wa_mav_step : profile.
Lemma wa_mav_calls e size bits calls : forall v, agrees (mav_calls_w W Debug e size bits calls v) (mav_calls_w W Release e size bits calls v).
Proof. induction calls as [|c r IH]; intros v; cbn [mav_calls_w]; agree. Qed.

Lemma wa_with_len s n : agrees (vec_with_len_w W Debug s n) (vec_with_len_w W Release s n).
Proof. unfold vec_with_len_w, calc_size_w. agree. Qed.
Lemma wa_vec_step e s o data : agrees (vec_step_w W Debug e s o data) (vec_step_w W Release e s o data).
Proof.
  destruct o; cbn [vec_step_w];
    unfold vec_grow_w, vec_at_mut_w, vec_reserve_w, vec_len_w, vec_size_in_bytes_w, calc_size_w, through_handle; agree.
Qed.
#[local] Hint Resolve wa_vec_step : profile.
Lemma wa_vec_run e s ops : forall data, agrees (vec_run_w W Debug e s ops data) (vec_run_w W Release e s ops data).
Proof. induction ops as [|c r IH]; intros v; cbn [vec_run_w]; agree. Qed.

(** * The debug build of a 64-bit target *)
Lemma wd_wrap x : agrees (wrap_w W Debug x) (wrap_or_panic Debug x).
Proof.
  destruct (pow_1 W HW) as (P1 & P2 & P3). unfold wrap_w, wrap_or_panic, usize_limit.
  destruct ((0 <=? x) && (x <? 2 ^ W)) eqn:E; [|left; reflexivity]. right.
  destruct ((0 <=? x) && (x <? 2 ^ 64)) eqn:E2; [reflexivity|lia].
Qed.
Lemma wd_uadd x y : agrees (uadd_w W Debug x y) (uadd Debug x y).
Proof. apply wd_wrap. Qed.
Lemma wd_usub x y : agrees (usub_w W Debug x y) (usub Debug x y).
Proof. apply wd_wrap. Qed.
Lemma wd_umul x y : agrees (umul_w W Debug x y) (umul Debug x y).
Proof. apply wd_wrap. Qed.
Lemma wd_resize data n : agrees (vec_resize_w W data n) (vec_resize data n).
Proof.
  destruct (pow_1 W HW) as (P1 & P2 & P3). unfold vec_resize_w, vec_resize, isize_max_w, isize_max.
  destruct (n <=? 2 ^ (W - 1) - 1) eqn:E; [|left; reflexivity]. right.
  destruct (n <=? 2 ^ 63 - 1) eqn:E2; [reflexivity|lia].
Qed.
#[local] Hint Resolve wd_uadd wd_usub wd_umul wd_resize : profile.
Lemma wd_with_len s n : agrees (vec_with_len_w W Debug s n) (vec_with_len Debug s n).
Proof. unfold vec_with_len_w, vec_with_len, calc_size_w, calc_size. agree. Qed.
Lemma wd_vec_step e s o data : agrees (vec_step_w W Debug e s o data) (vec_step Debug e s o data).
Proof.
  destruct (pow_1 W HW) as (P1 & P2 & P3).
  destruct o; cbn [vec_step_w vec_step];
    unfold vec_grow_w, vec_at_mut_w, vec_reserve_w, vec_len_w, vec_size_in_bytes_w, calc_size_w, through_handle,
      vec_grow, vec_at_mut, vec_reserve, vec_len, vec_size_in_bytes, calc_size.
  1-2: agree.
  repeat (apply agrees_bind; [agree|intro]).
  unfold isize_max_w, isize_max. destruct (_ <=? 2 ^ (W - 1) - 1) eqn:E; [|left; reflexivity].
  destruct (_ <=? 2 ^ 63 - 1) eqn:E2; [right; reflexivity|lia].
Qed.
#[local] Hint Resolve wd_vec_step : profile.
Lemma wd_vec_run e s ops : forall data, agrees (vec_run_w W Debug e s ops data) (vec_run Debug e s ops data).
Proof. induction ops as [|c r IH]; intros v; cbn [vec_run_w vec_run]; agree. Qed.

(** * Views that fit the address space *)
(** Both give the same, or the target panics where the 64-bit build gets a
    number over L. *)
Definition near (L : Z) (x y : outcome Z) : Prop := x = y \/ x = Panic /\ exists z, y = Ret z /\ L < z.
Lemma near_wrap L x : L < 2 ^ W -> near L (wrap_w W Debug x) (wrap_or_panic Debug x).
Proof.
  destruct (pow_1 W HW) as (P1 & P2 & P3). intros HL. unfold near, wrap_w, wrap_or_panic, usize_limit.
  destruct ((0 <=? x) && (x <? 2 ^ W)) eqn:E; destruct ((0 <=? x) && (x <? 2 ^ 64)) eqn:E2; auto; [lia|].
  right. split; [reflexivity|]. exists x. split; [reflexivity|lia].
Qed.
Lemma near_bind L x y f g : near L x y -> (forall z, near L (f z) (g z)) ->
  (forall z, L < z -> g z = Panic \/ exists z', g z = Ret z' /\ L < z') -> near L (obind x f) (obind y g).
Proof.
  intros [->|(-> & z & -> & Hz)] H G.
  - destruct y; cbn [obind]; [apply H|left; reflexivity|left; reflexivity|left; reflexivity].
  - cbn [obind]. destruct (G z Hz) as [E|(z' & E & Hz')]; rewrite E; [left; reflexivity|].
    right. split; [reflexivity|]. exists z'. auto.
Qed.
Lemma near_end {A} L x y (f g : Z -> outcome A) : near L x y -> (forall z, f z = g z) ->
  (forall z, L < z -> g z = Panic) -> obind x f = obind y g.
Proof.
  intros [->|(-> & z & -> & Hz)] H G.
  - destruct y; cbn [obind]; auto.
  - cbn [obind]. symmetry. apply G. exact Hz.
Qed.
Lemma big_mul L z k : 0 <= L -> L < z -> 0 < k -> umul Debug z k = Panic \/ exists z', umul Debug z k = Ret z' /\ L < z'.
Proof.
  intros H0 Hz Hk. unfold umul, wrap_or_panic. destruct (_ && _); [right|left; reflexivity].
  eexists. split; [reflexivity|]. nia.
Qed.
Lemma big_add L z k : L < z -> 0 <= k -> uadd Debug z k = Panic \/ exists z', uadd Debug z k = Ret z' /\ L < z'.
Proof.
  intros Hz Hk. unfold uadd, wrap_or_panic. destruct (_ && _); [right|left; reflexivity].
  eexists. split; [reflexivity|]. lia.
Qed.

Section Fits.
Variables (s : sdesc) (L : Z).
Hypotheses (Hs : 0 < s_size s) (HL : 0 <= L < 2 ^ W).

Lemma big_at v i : sl_len v <= L -> L < i -> av_at Debug s v i = Panic.
Proof.
  intros Hv Hi. unfold av_at, data_index.
  destruct (big_mul L i (s_size s)) as [E|(z & E & Hz)]; try lia; rewrite E; [reflexivity|]. cbn [obind].
  destruct (big_add L z (s_size s)) as [E2|(z2 & E2 & Hz2)]; try lia; rewrite E2; [reflexivity|]. cbn [obind].
  destruct (z2 <=? sl_len v) eqn:E3; [lia|reflexivity].
Qed.
Lemma fit_at v i : sl_len v <= L -> av_at_w W Debug s v i = av_at Debug s v i.
Proof.
  intros Hv. unfold av_at_w, av_at, data_index. apply (near_end L).
  - apply near_wrap. lia.
  - intros z. apply (near_end L).
    + apply near_wrap. lia.
    + reflexivity.
    + intros z' Hz'. destruct (z' <=? sl_len v) eqn:E3; [lia|reflexivity].
  - intros z Hz. destruct (big_add L z (s_size s)) as [E2|(z2 & E2 & Hz2)]; try lia; rewrite E2; [reflexivity|]. cbn [obind].
    destruct (z2 <=? sl_len v) eqn:E3; [lia|reflexivity].
Qed.
Lemma range_end v a z : sl_len v <= L -> L < z -> slice_range v a z = Panic.
Proof. intros Hv Hz. unfold slice_range. destruct (_ && _) eqn:E; [lia|reflexivity]. Qed.
Lemma range_start v a z : sl_len v <= L -> L < a -> slice_range v a z = Panic.
Proof. intros Hv Hz. unfold slice_range. destruct (_ && _) eqn:E; [lia|reflexivity]. Qed.

Definition slice_end64 (v : view) (hi : bound) : outcome Z :=
  match hi with
  | Included i => k <- uadd Debug i 1 ;; data_index Debug s k
  | Excluded i => data_index Debug s i
  | Unbounded => Ret (sl_len v)
  end.
Lemma end_no_ub v hi : slice_end64 v hi = Panic \/ exists z, slice_end64 v hi = Ret z.
Proof.
  unfold slice_end64, data_index, umul, uadd, wrap_or_panic. destruct hi; repeat (destruct (_ && _); cbn [obind]); eauto.
Qed.
Lemma near_index i : near L (umul_w W Debug i (s_size s)) (data_index Debug s i).
Proof. apply near_wrap. lia. Qed.
Lemma near_next i k : 0 <= k -> near L (x <- uadd_w W Debug i k ;; umul_w W Debug x (s_size s)) (x <- uadd Debug i k ;; data_index Debug s x).
Proof.
  intros Hk. apply near_bind.
  - apply near_wrap. lia.
  - intros z. apply near_index.
  - intros z Hz. apply big_mul; lia.
Qed.
Lemma fit_slice v lo hi : sl_len v <= L -> av_slice_w W Debug s v lo hi = av_slice Debug s v lo hi.
Proof.
  intros Hv. unfold av_slice_w, av_slice. apply (near_end L).
  - destruct lo; [apply near_index|apply near_next; lia|left; reflexivity].
  - intros a. apply (near_end L).
    + destruct hi; [apply near_next; lia|apply near_index|left; reflexivity].
    + reflexivity.
    + intros z Hz. apply range_end; auto.
  - intros z Hz. change (obind (slice_end64 v hi) (fun y => slice_range v z y) = Panic).
    destruct (end_no_ub v hi) as [E|(y & E)]; rewrite E; [reflexivity|]. cbn [obind]. apply range_start; auto.
Qed.
Lemma slice_smaller v lo hi v' : sl_len v <= L -> av_slice Debug s v lo hi = Ret v' -> sl_len v' <= L.
Proof.
  intros Hv. unfold av_slice.
  destruct (match lo with Included i => _ | Excluded i => _ | Unbounded => _ end) as [a| | |]; try discriminate. cbn [obind].
  destruct (match hi with Included i => _ | Excluded i => _ | Unbounded => _ end) as [z| | |]; try discriminate. cbn [obind].
  unfold slice_range. destruct (_ && _) eqn:E; [|discriminate]. intros X. injection X as <-. cbn [sl_len]. lia.
Qed.
Lemma fit_step c v : sl_len v <= L -> view_step_w W Debug s c v = view_step Debug s c v.
Proof.
  intros Hv. destruct c; cbn [view_step_w view_step].
  - rewrite fit_at by auto. reflexivity.
  - rewrite fit_slice by auto. reflexivity.
  - unfold av_next_w, av_next. rewrite fit_at, fit_slice by auto. reflexivity.
  - unfold av_next_back_w, av_next_back. destruct (negb _); [|reflexivity]. apply (near_end L).
    + apply near_wrap. lia.
    + intros z. rewrite fit_at, fit_slice by auto. reflexivity.
    + intros z Hz. rewrite big_at by auto. reflexivity.
Qed.
Lemma step_smaller c v r v' : sl_len v <= L -> view_step Debug s c v = Ret (r, v') -> sl_len v' <= L.
Proof.
  intros Hv. destruct c; cbn [view_step].
  - destruct (av_at _ _ _ _); try discriminate. cbn [obind]. congruence.
  - destruct (av_slice _ _ _ _ _) as [v1| | |] eqn:E; try discriminate. cbn [obind]. intros X. injection X as <- <-.
    eapply slice_smaller; eauto.
  - unfold av_next. destruct (negb _); [|congruence].
    destruct (av_at _ _ _ _); try discriminate. cbn [obind].
    destruct (av_slice _ _ _ _ _) as [v1| | |] eqn:E; try discriminate. cbn [obind]. intros X. injection X as <- <-.
    eapply slice_smaller; eauto.
  - unfold av_next_back. destruct (negb _); [|congruence].
    destruct (usub _ _ _); try discriminate. cbn [obind].
    destruct (av_at _ _ _ _); try discriminate. cbn [obind].
    destruct (av_slice _ _ _ _ _) as [v1| | |] eqn:E; try discriminate. cbn [obind]. intros X. injection X as <- <-.
    eapply slice_smaller; eauto.
Qed.
Lemma fit_calls calls : forall v, sl_len v <= L -> view_calls_w W Debug s calls v = view_calls Debug s calls v.
Proof.
  induction calls as [|c r IH]; intros v Hv; [reflexivity|]. cbn [view_calls_w view_calls].
  rewrite fit_step by auto. destruct (view_step Debug s c v) as [[x v']| | |] eqn:E; [|reflexivity|reflexivity|reflexivity].
  cbn [obind fst snd]. rewrite IH by (eapply step_smaller; eauto). reflexivity.
Qed.
End Fits.
End Width.

(** The debug build does the same, and the release build unless that panics. *)
Theorem views_fit W s calls v : 1 <= W <= 64 -> 0 < s_size s -> sl_len v <= 2 ^ (W - 1) - 1 ->
  view_calls_w W Debug s calls v = view_calls Debug s calls v /\
  (view_calls Debug s calls v <> Panic -> view_calls_w W Release s calls v = view_calls Debug s calls v).
Proof.
  intros HW Hs Hv. destruct (pow_1 W HW) as (P1 & P2 & P3).
  assert (E := fit_calls W HW s (2 ^ (W - 1) - 1) Hs ltac:(lia) calls v Hv). split; [exact E|].
  intros N. destruct (wa_calls W s calls v) as [X|X]; congruence.
Qed.

(** * Multi-arrays whose index type fits [usize] *)
Section Multi.
Variables (W : Z) (e : endian) (size bits L : Z).
Hypotheses (HW : 1 <= W <= 64) (HL : 0 <= L < 2 ^ W) (Hwf : wf_struct (index_struct size bits)) (HB : bits <= W).
Let is := index_struct size bits.
Let Hs : 0 < s_size is.
Proof. destruct Hwf; auto. Qed.
Definition mfits (v : mav) : Prop := slice_ok (ma_index v) /\ sl_len (ma_index v) <= L.

Lemma at_memory v i m : slice_ok v -> av_at Debug is v i = Ret m -> bytes_ok m /\ s_size is <= len m.
Proof.
  intros (V1 & V2 & V3). unfold av_at, data_index, umul, uadd. destruct (wrap_or_panic Debug (i * s_size is)) as [z| | |] eqn:E1; try discriminate. cbn [obind].
  destruct (wrap_or_panic Debug (z + s_size is)) as [y| | |] eqn:E2; try discriminate. cbn [obind].
  destruct (y <=? sl_len v) eqn:E3; [|discriminate]. unfold slice_from, slice_range.
  destruct (_ && _) eqn:E4; [|discriminate]. cbn [obind sl_mem]. intros X. injection X as <-.
  split; [apply bytes_ok_skipn; auto|]. rewrite len_skipn by lia.
  unfold wrap_or_panic in E2. destruct ((0 <=? z + s_size is) && (z + s_size is <? usize_limit)) eqn:E5; [|discriminate].
  assert (z + s_size is = y) by congruence. lia.
Qed.
Lemma index_small b m : bytes_ok m -> s_size is <= len m -> exists x, get_index b e bits m = Ret x /\ 0 <= x < 2 ^ W.
Proof.
  intros Bm Lm. destruct Hwf as (_ & F & _). inversion F as [|f fs Hf _]; subst.
  unfold get_index. rewrite (get_field_ok b e is) by auto. eexists. split; [reflexivity|].
  destruct Hf as (H1 & H2 & _). cbn [f_prim f_off f_bits width] in *. unfold field_value. cbn [is_signed].
  assert (R := field_unsigned_range m 0 bits ltac:(lia)). assert (2 ^ bits <= 2 ^ W) by (apply Z.pow_le_mono_r; lia). lia.
Qed.
Lemma fit_index v i : mfits v -> mav_index_at_w W Debug e size bits v i = mav_index_at Debug e size bits v i.
Proof.
  intros (V & Hv). unfold mav_index_at_w, mav_index_at. fold is. rewrite (fit_at W HW is L) by auto.
  destruct (av_at Debug is (ma_index v) i) as [m| | |] eqn:E; [|reflexivity|reflexivity|reflexivity]. cbn [obind].
  destruct (at_memory _ _ _ V E) as (Bm & Lm). destruct (index_small Debug m Bm Lm) as (x & E2 & Hx). rewrite E2. cbn [omap obind].
  unfold as_usize. rewrite Z.mod_small by lia. reflexivity.
Qed.
Lemma big_index v i : mfits v -> L < i -> mav_index_at Debug e size bits v i = Panic.
Proof. intros (V & Hv) Hi. unfold mav_index_at. fold is. rewrite (big_at W HW is L) by (auto; lia). reflexivity. Qed.
Lemma fit_mav_at v i : mfits v -> mav_at_w W Debug e size bits v i = mav_at Debug e size bits v i.
Proof.
  intros Hv. unfold mav_at_w, mav_at. rewrite fit_index by auto.
  destruct (mav_index_at Debug e size bits v i) as [a| | |]; [|reflexivity|reflexivity|reflexivity]. cbn [obind].
  apply (near_end L).
  - apply near_wrap; auto; lia.
  - intros z. rewrite fit_index by auto. reflexivity.
  - intros z Hz. rewrite big_index by auto. reflexivity.
Qed.
Lemma big_slice_start v a hi : sl_len v <= L -> L < a -> av_slice Debug is v (Included a) hi = Panic.
Proof.
  intros Hv Ha. unfold av_slice, data_index.
  destruct (big_mul W HW L a (s_size is)) as [E|(z & E & Hz)]; try lia; auto; rewrite E; [reflexivity|]. cbn [obind].
  change (obind (slice_end64 is v hi) (fun y => slice_range v z y) = Panic).
  destruct (end_no_ub is v hi) as [E2|(y & E2)]; rewrite E2; [reflexivity|]. cbn [obind]. apply (range_start W HW L); auto.
Qed.
Lemma big_slice_end v a z : sl_len v <= L -> L < z -> av_slice Debug is v (Included a) (Excluded z) = Panic.
Proof.
  intros Hv Ha. unfold av_slice, data_index.
  destruct (umul Debug a (s_size is)) as [x| | |] eqn:E1; try reflexivity; cbn [obind].
  - destruct (big_mul W HW L z (s_size is)) as [E|(y & E & Hy)]; try lia; auto; rewrite E; [reflexivity|]. cbn [obind].
    apply (range_end W HW L); auto.
  - unfold umul, wrap_or_panic in E1. destruct (_ && _); discriminate.
  - unfold umul, wrap_or_panic in E1. destruct (_ && _); discriminate.
Qed.
Lemma fit_mav_slice v lo hi : mfits v -> mav_slice_w W Debug size bits v lo hi = mav_slice Debug size bits v lo hi.
Proof.
  intros (V & Hv). unfold mav_slice_w, mav_slice. fold is. apply (near_end L).
  - destruct lo; [left; reflexivity|apply near_wrap; auto; lia|left; reflexivity].
  - intros a. apply (near_end L).
    + destruct hi; [apply near_wrap; auto; lia|apply near_wrap; auto; lia|left; reflexivity].
    + intros z. rewrite (fit_slice W HW is L) by auto. reflexivity.
    + intros z Hz. rewrite big_slice_end by auto. reflexivity.
  - intros z Hz. destruct hi as [i|i|]; cbn [obind].
    + unfold uadd, wrap_or_panic. destruct (_ && _); [|reflexivity]. cbn [obind]. rewrite big_slice_start by auto. reflexivity.
    + unfold uadd, wrap_or_panic. destruct (_ && _); [|reflexivity]. cbn [obind]. rewrite big_slice_start by auto. reflexivity.
    + rewrite big_slice_start by auto. reflexivity.
Qed.
Lemma av_slice_fits v lo hi v' : slice_ok v -> sl_len v <= L -> av_slice Debug is v lo hi = Ret v' -> slice_ok v' /\ sl_len v' <= L.
Proof.
  intros V Hv E. split; [|eapply slice_smaller; eauto]. revert E. unfold av_slice.
  destruct (match lo with Included i => _ | Excluded i => _ | Unbounded => _ end) as [a| | |]; try discriminate. cbn [obind].
  destruct (match hi with Included i => _ | Excluded i => _ | Unbounded => _ end) as [z| | |]; try discriminate. cbn [obind].
  intros E. destruct (slice_range_cases v a z V) as [P|(w & R & O & _)]; congruence.
Qed.
Lemma mav_slice_fits v lo hi v' : mfits v -> mav_slice Debug size bits v lo hi = Ret v' -> mfits v'.
Proof.
  intros (V & Hv). unfold mav_slice. fold is.
  destruct (match lo with Included i => _ | Excluded i => _ | Unbounded => _ end) as [a| | |]; try discriminate. cbn [obind].
  destruct (match hi with Included i => _ | Excluded i => _ | Unbounded => _ end) as [z| | |]; try discriminate. cbn [obind].
  destruct (av_slice _ _ _ _ _) as [v1| | |] eqn:E; try discriminate. cbn [obind]. intros X. injection X as <-.
  split; cbn [ma_index]; eapply av_slice_fits; eauto.
Qed.
Lemma near_len v : near L (mav_len_w W Debug size bits v) (mav_len Debug size bits v).
Proof. apply near_wrap; auto; lia. Qed.
Lemma mav_len_not_big v z : mfits v -> mav_len Debug size bits v = Ret z -> z <= L.
Proof.
  intros (V & Hv). unfold mav_len, usub, wrap_or_panic. destruct (_ && _) eqn:E; [|discriminate].
  intros X. injection X as <-. assert (av_len is (ma_index v) <= sl_len (ma_index v)); [|fold is; lia].
  unfold av_len. destruct V as (V1 & _). apply Z.div_le_upper_bound; [lia|nia].
Qed.
Lemma fit_mav_len v : mfits v -> mav_len_w W Debug size bits v = mav_len Debug size bits v.
Proof.
  intros Hv. destruct (near_len v) as [E|(_ & z & E & Hz)]; [exact E|].
  apply mav_len_not_big in E; [lia|auto].
Qed.
Lemma fit_mav_step c v : mfits v -> mav_step_w W Debug e size bits c v = mav_step Debug e size bits c v.
Proof.
  intros Hv. destruct c; cbn [mav_step_w mav_step].
  - rewrite fit_mav_at by auto. reflexivity.
  - rewrite fit_mav_slice by auto. reflexivity.
  - unfold mav_next_w, mav_next, mav_is_empty_w, mav_is_empty.
    rewrite fit_mav_at, fit_mav_slice, fit_mav_len by auto. reflexivity.
  - unfold mav_next_back_w, mav_next_back, mav_is_empty_w, mav_is_empty. rewrite fit_mav_len by auto.
    destruct (mav_len Debug size bits v) as [n| | |]; [|reflexivity|reflexivity|reflexivity]. cbn [obind].
    destruct (negb _); [|reflexivity]. apply (near_end L).
    + apply near_wrap; auto; lia.
    + intros z. rewrite fit_mav_at, fit_mav_slice by auto. reflexivity.
    + intros z Hz. unfold mav_at. rewrite big_index by auto. reflexivity.
Qed.
Lemma mav_step_fits c v r v' : mfits v -> mav_step Debug e size bits c v = Ret (r, v') -> mfits v'.
Proof.
  intros Hv. destruct c; cbn [mav_step].
  - destruct (mav_at _ _ _ _ _ _); try discriminate. cbn [obind]. congruence.
  - destruct (mav_slice _ _ _ _ _ _) as [v1| | |] eqn:E; try discriminate. cbn [obind]. intros X. injection X as <- <-.
    eapply mav_slice_fits; eauto.
  - unfold mav_next. destruct (mav_is_empty _ _ _ _) as [x| | |]; try discriminate. cbn [obind].
    destruct (negb x); [|congruence].
    destruct (mav_at _ _ _ _ _ _); try discriminate. cbn [obind].
    destruct (mav_slice _ _ _ _ _ _) as [v1| | |] eqn:E; try discriminate. cbn [obind]. intros X. injection X as <- <-.
    eapply mav_slice_fits; eauto.
  - unfold mav_next_back. destruct (mav_is_empty _ _ _ _) as [x| | |]; try discriminate. cbn [obind].
    destruct (negb x); [|congruence].
    destruct (mav_len _ _ _ _); try discriminate. cbn [obind].
    destruct (usub _ _ _); try discriminate. cbn [obind].
    destruct (mav_at _ _ _ _ _ _); try discriminate. cbn [obind].
    destruct (mav_slice _ _ _ _ _ _) as [v1| | |] eqn:E; try discriminate. cbn [obind]. intros X. injection X as <- <-.
    eapply mav_slice_fits; eauto.
Qed.
Lemma fit_mav_calls calls : forall v, mfits v -> mav_calls_w W Debug e size bits calls v = mav_calls Debug e size bits calls v.
Proof.
  induction calls as [|c r IH]; intros v Hv; [reflexivity|]. cbn [mav_calls_w mav_calls].
  rewrite fit_mav_step by auto. destruct (mav_step Debug e size bits c v) as [[x v']| | |] eqn:E; [|reflexivity|reflexivity|reflexivity].
  cbn [obind fst snd]. rewrite IH by (eapply mav_step_fits; eauto). reflexivity.
Qed.
End Multi.

Theorem multi_views_fit W e size bits calls v : 1 <= W <= 64 -> wf_struct (index_struct size bits) -> bits <= W ->
  slice_ok (ma_index v) -> sl_len (ma_index v) <= 2 ^ (W - 1) - 1 ->
  mav_calls_w W Debug e size bits calls v = mav_calls Debug e size bits calls v /\
  (mav_calls Debug e size bits calls v <> Panic -> mav_calls_w W Release e size bits calls v = mav_calls Debug e size bits calls v).
Proof.
  intros HW Hwf HB V Hv. destruct (pow_1 W HW) as (P1 & P2 & P3).
  assert (E := fit_mav_calls W e size bits (2 ^ (W - 1) - 1) HW ltac:(lia) Hwf HB calls v (conj V Hv)). split; [exact E|].
  intros N. destruct (wa_mav_calls W e size bits calls v) as [X|X]; congruence.
Qed.

(** * Vectors *)
Lemma wrap_w_debug W x : 0 <= x -> wrap_w W Debug x = if x <? 2 ^ W then Ret x else Panic.
Proof. intros H. unfold wrap_w. destruct (Z.leb_spec 0 x); [|lia]. simpl. destruct (x <? 2 ^ W); reflexivity. Qed.
Lemma wrap_w_release W x : wrap_w W Release x = Ret (x mod 2 ^ W).
Proof. unfold wrap_w. destruct (_ && _) eqn:E; auto. rewrite Z.mod_small by lia. reflexivity. Qed.

Theorem with_len_w_exact W b s n : 1 <= W <= 64 -> wf_struct s -> 0 <= n ->
  vec_with_len_w W b s n =
  let q := match b with Debug => n * s_size s + 8 | Release => (n * s_size s + 8) mod 2 ^ W end in
  if q <=? 2 ^ (W - 1) - 1 then Ret (zeros q) else Panic.
Proof.
  intros HW Hwf Hn. destruct (pow_1 W HW) as (P1 & P2 & P3). pose proof (wf_size s Hwf). assert (0 <= n * s_size s) by nia.
  assert (R : forall q, vec_resize_w W [] q = if q <=? 2 ^ (W - 1) - 1 then Ret (zeros q) else Panic).
  { intros q. unfold vec_resize_w. rewrite firstn_nil, len_nil, Z.sub_0_r. reflexivity. }
  unfold vec_with_len_w, calc_size_w, umul_w, uadd_w, PADDING_SIZE. cbv zeta. destruct b.
  - rewrite wrap_w_debug by lia. destruct (Z.ltb_spec (n * s_size s) (2 ^ W)); cbn [obind].
    + rewrite wrap_w_debug by lia. destruct (Z.ltb_spec (n * s_size s + 8) (2 ^ W)); cbn [obind]; [apply R|].
      destruct (Z.leb_spec (n * s_size s + 8) (2 ^ (W - 1) - 1)); [lia|reflexivity].
    + destruct (Z.leb_spec (n * s_size s + 8) (2 ^ (W - 1) - 1)); [lia|reflexivity].
  - rewrite wrap_w_release. cbn [obind]. rewrite wrap_w_release. cbn [obind]. rewrite Zplus_mod_idemp_l. apply R.
Qed.

Lemma inv_len s data l : vec_inv s data l -> len data = Z.of_nat (length l) * s_size s + 8.
Proof. intros (els & -> & Hb & Hl & Hr & Hm). rewrite len_app, len_zeros, Hl in * by lia. lia. Qed.
Theorem grow_w_exact W b s data l : 1 <= W <= 64 -> wf_struct s -> s_size s <= 2 ^ (W - 1) - 1 -> vec_inv s data l ->
  len data <= 2 ^ (W - 1) - 1 ->
  vec_grow_w W b s data = if len data + s_size s <=? 2 ^ (W - 1) - 1 then vec_grow b s data else Panic.
Proof.
  intros HW Hwf Hs Hi Hf. destruct (pow_1 W HW) as (P1 & P2 & P3). pose proof (wf_size s Hwf).
  assert (HL := inv_len s data l Hi). pose proof (len_nonneg data).
  unfold vec_grow_w, vec_grow, uadd_w, uadd. rewrite wrap_w_ok by lia. rewrite wrap_ok by (unfold usize_limit; lia). cbn [obind].
  unfold vec_resize_w, vec_resize, isize_max_w, isize_max.
  destruct (Z.leb_spec (len data + s_size s) (2 ^ (W - 1) - 1)); [|reflexivity].
  destruct (Z.leb_spec (len data + s_size s) (2 ^ 63 - 1)); [|lia]. cbn [obind].
  set (data' := firstn _ data ++ zeros _).
  assert (L' : len data' = len data + s_size s).
  { unfold data'. rewrite len_app, len_zeros by lia. rewrite firstn_all2 by (unfold len in *; lia). lia. }
  clearbody data'. unfold vec_len_w, vec_size_in_bytes_w, vec_len, vec_size_in_bytes, usub_w, usub, PADDING_SIZE.
  rewrite L'. rewrite wrap_w_ok by nia. rewrite wrap_ok by (unfold usize_limit; nia). cbn [obind].
  assert (Q : (len data + s_size s - 8) / s_size s = Z.of_nat (length l) + 1).
  { rewrite HL. replace (Z.of_nat (length l) * s_size s + 8 + s_size s - 8) with ((Z.of_nat (length l) + 1) * s_size s) by lia.
    apply Z.div_mul. lia. }
  rewrite Q. rewrite wrap_w_ok by nia. rewrite wrap_ok by (unfold usize_limit; nia). cbn [obind].
  unfold umul_w, umul. rewrite wrap_w_ok by nia. rewrite wrap_ok by (unfold usize_limit; nia). reflexivity.
Qed.

(** In release builds positions wrap around at 2^W bytes. *)
Theorem at_w_wraps W s v data i k : s_size s * k = 2 ^ W ->
  av_at_w W Release s v (i + k) = av_at_w W Release s v i /\
  vec_at_w W Release s data (i + k) = vec_at_w W Release s data i /\
  vec_at_mut_w W Release s data (i + k) = vec_at_mut_w W Release s data i.
Proof.
  intros E. assert (X : umul_w W Release (i + k) (s_size s) = umul_w W Release i (s_size s)).
  { unfold umul_w. rewrite !wrap_w_release. f_equal. replace ((i + k) * s_size s) with (i * s_size s + 1 * 2 ^ W) by lia.
    rewrite Z_mod_plus_full. reflexivity. }
  unfold av_at_w, vec_at_w, vec_at_mut_w. rewrite X. auto.
Qed.

Theorem at_w_wrong W s v k : 1 <= W <= 63 -> 0 < s_size s -> s_size s * k = 2 ^ W -> slice_ok v ->
  s_size s <= sl_len v <= 2 ^ (W - 1) - 1 ->
  (forall b, av_at b s v k = Panic) /\ av_at_w W Release s v k = Ret (sl_mem v).
Proof.
  intros HW Hs E V Hv. destruct (pow_1 W ltac:(lia)) as (P1 & P2 & P3).
  assert (P4 : 2 ^ W <= 2 ^ 63) by (apply Z.pow_le_mono_r; lia). split.
  - intros b. unfold av_at, data_index, umul, uadd. replace (k * s_size s) with (2 ^ W) by lia.
    rewrite wrap_ok by (unfold usize_limit; lia). cbn [obind]. rewrite wrap_ok by (unfold usize_limit; lia). cbn [obind].
    destruct (Z.leb_spec (2 ^ W + s_size s) (sl_len v)); [lia|reflexivity].
  - destruct (at_w_wraps W s v [] 0 k E) as (X & _). rewrite Z.add_0_l in X. rewrite X.
    unfold av_at_w, umul_w, uadd_w. rewrite Z.mul_0_l. rewrite wrap_w_ok by lia. cbn [obind]. rewrite Z.add_0_l.
    rewrite wrap_w_ok by lia. cbn [obind]. destruct (Z.leb_spec (s_size s) (sl_len v)); [|lia].
    unfold slice_from. rewrite slice_range_ok by lia. reflexivity.
Qed.

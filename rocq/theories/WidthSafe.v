(** Views and vectors in memory stay inside their memory on targets of any width. *)
From Verif Require Import Base BaseFacts Codec CodecSpec CodecFacts Structs StructsSpec StructsFacts.
From Verif Require Import Views ViewsSpec ViewsFacts ViewsExact Storage Writers WritersSpec MultiViews MultiSpec MultiViewFacts MultiViewUse.
From Verif Require Import ProfileSpec ProfileFacts Width WidthFacts WidthVectors WidthMemory WidthMemFacts.
Local Open Scope list_scope.
Local Open Scope Z_scope.

(** A panic, or a value with [Q]. *)
Definition yields {A} (x : outcome A) (Q : A -> Prop) : Prop := x = Panic \/ exists a, x = Ret a /\ Q a.
Lemma yields_bind {A B} (x : outcome A) (f : A -> outcome B) P Q : yields x P -> (forall a, P a -> yields (f a) Q) -> yields (obind x f) Q.
Proof. intros [->|(a & -> & Ha)] H; [left; reflexivity|]. apply H, Ha. Qed.
Lemma yields_ret {A} (a : A) (Q : A -> Prop) : Q a -> yields (Ret a) Q.
Proof. right. eauto. Qed.
Lemma yields_weaken {A} (x : outcome A) (P Q : A -> Prop) : yields x P -> (forall a, P a -> Q a) -> yields x Q.
Proof. intros [->|(a & -> & Ha)] H; [left; reflexivity|]. right. eauto. Qed.

Section Width.
Variables (W : Z) (b : build).
Hypothesis HW : 1 <= W <= 64.

Lemma wrap_yields x : yields (wrap_w W b x) (fun y => 0 <= y < 2 ^ W /\ (y = x \/ b = Release /\ y = x mod 2 ^ W)).
Proof.
  destruct (pow_1 W HW) as (P1 & P2 & P3). unfold wrap_w. destruct ((0 <=? x) && (x <? 2 ^ W)) eqn:E; [right; exists x; split; [reflexivity|lia]|].
  destruct b; [left; reflexivity|]. right. eexists. split; [reflexivity|]. split; [apply Z.mod_pos_bound; lia|auto].
Qed.
Lemma range_yields v lo hi : slice_ok v -> yields (slice_range v lo hi) (fun w => slice_ok w /\ view_inside v w).
Proof.
  intros Hv. destruct (slice_range_cases v lo hi Hv) as [->|(w & -> & Ok & In & _)]; [left; reflexivity|]. right. eauto.
Qed.
Lemma at_yields s v i : 0 < s_size s <= 2 ^ (W - 1) - 1 -> slice_ok v -> sl_len v <= 2 ^ (W - 1) - 1 ->
  yields (av_at_w W b s v i) (handle_inside s v).
Proof.
  destruct (pow_1 W HW) as (P1 & P2 & P3). intros Hs Hv Hl. unfold av_at_w, umul_w, uadd_w.
  eapply yields_bind; [apply wrap_yields|]. intros y (Hy & _). eapply yields_bind; [apply wrap_yields|]. intros z (Hz & Hz').
  destruct (z <=? sl_len v) eqn:E; [|left; reflexivity]. unfold slice_from, slice_range.
  destruct ((0 <=? y) && (y <=? sl_len v) && (sl_len v <=? sl_len v)) eqn:E2; [|left; reflexivity].
  apply yields_ret. exists y. split; [lia|]. split; [|reflexivity].
  destruct Hz' as [->|(_ & ->)]; [lia|]. rewrite Z.mod_small in E by lia. lia.
Qed.
Lemma slice_yields s v lo hi : slice_ok v -> yields (av_slice_w W b s v lo hi) (fun w => slice_ok w /\ view_inside v w).
Proof.
  intros Hv. unfold av_slice_w, umul_w, uadd_w.
  eapply yields_bind with (P := fun _ => True).
  { destruct lo; [eapply yields_weaken; [apply wrap_yields|auto]| |apply yields_ret; auto].
    eapply yields_bind; [apply wrap_yields|]. intros. eapply yields_weaken; [apply wrap_yields|auto]. }
  intros x _. eapply yields_bind with (P := fun _ => True).
  { destruct hi; [|eapply yields_weaken; [apply wrap_yields|auto]|apply yields_ret; auto].
    eapply yields_bind; [apply wrap_yields|]. intros. eapply yields_weaken; [apply wrap_yields|auto]. }
  intros y _. apply range_yields, Hv.
Qed.
Lemma inside_len v w : view_inside v w -> sl_len w <= sl_len v.
Proof. intros (p & H1 & H2 & H3 & _). lia. Qed.
Lemma step_yields s c v : 0 < s_size s <= 2 ^ (W - 1) - 1 -> slice_ok v -> sl_len v <= 2 ^ (W - 1) - 1 ->
  yields (view_step_w W b s c v) (fun x => slice_ok (snd x) /\ view_inside v (snd x) /\ forall m, fst x = Some m -> handle_inside s v m).
Proof.
  intros Hs Hv Hl. assert (Hi := view_inside_refl v Hv).
  assert (No : yields (Ret (None : option (list Z), v)) (fun x => slice_ok (snd x) /\ view_inside v (snd x) /\ forall m, fst x = Some m -> handle_inside s v m)).
  { apply yields_ret. split; [auto|]. split; [auto|]. discriminate. }
  destruct c as [i|lo hi| |]; cbn [view_step_w].
  - eapply yields_bind; [apply at_yields; auto|]. intros m Hm. apply yields_ret. split; [auto|]. split; [auto|]. cbn [fst]. congruence.
  - eapply yields_bind; [apply slice_yields; auto|]. intros w (Hw & Hw'). apply yields_ret. split; [auto|]. split; [auto|]. discriminate.
  - unfold av_next_w. destruct (negb _); [|exact No]. eapply yields_bind; [apply at_yields; auto|]. intros m Hm.
    eapply yields_bind; [apply slice_yields; auto|]. intros w (Hw & Hw'). apply yields_ret. split; [auto|]. split; [auto|]. cbn [fst]. congruence.
  - unfold av_next_back_w, usub_w. destruct (negb _); [|exact No]. eapply yields_bind; [apply wrap_yields|]. intros y _.
    eapply yields_bind; [apply at_yields; auto|]. intros m Hm.
    eapply yields_bind; [apply slice_yields; auto|]. intros w (Hw & Hw'). apply yields_ret. split; [auto|]. split; [auto|]. cbn [fst]. congruence.
Qed.
Lemma calls_yields s calls : forall v, 0 < s_size s <= 2 ^ (W - 1) - 1 -> slice_ok v -> sl_len v <= 2 ^ (W - 1) - 1 ->
  yields (view_calls_w W b s calls v) (fun x => slice_ok (snd x) /\ view_inside v (snd x) /\ Forall (handle_inside s v) (fst x)).
Proof.
  induction calls as [|c r IH]; intros v Hs Hv Hl; cbn [view_calls_w].
  - apply yields_ret. split; [exact Hv|]. split; [apply view_inside_refl, Hv|constructor].
  - eapply yields_bind; [apply step_yields; auto|]. intros [o w] (Hw & Hi & Ho). cbn [fst snd] in *. assert (H := inside_len _ _ Hi).
    eapply yields_bind; [apply (IH w); auto; lia|]. intros [ms w'] (Hw' & Hi' & Hm). cbn [fst snd] in *. apply yields_ret. cbn [fst snd].
    split; [exact Hw'|]. split; [eapply view_inside_trans; eauto|].
    assert (Hm' : Forall (handle_inside s v) ms) by (eapply Forall_impl; [|exact Hm]; intros m; apply handle_inside_trans; exact Hi).
    destruct o; auto.
Qed.

Section Multi.
Variables (e : endian) (size bits : Z).
Let is := index_struct size bits.
Hypothesis Hwf : wf_struct is.
Hypothesis Hsize : size <= 2 ^ (W - 1) - 1.

Lemma index_yields v i : slice_ok (ma_index v) -> sl_len (ma_index v) <= 2 ^ (W - 1) - 1 ->
  yields (mav_index_at_w W b e size bits v i) (fun _ => True).
Proof.
  intros Hv Hl. pose proof Hwf as (Hs & _). unfold mav_index_at_w. fold is.
  eapply yields_bind; [apply at_yields; [unfold is in *; cbn in *; lia|exact Hv|exact Hl]|]. intros m Hm.
  assert (R := handle_readable b e is (ma_index v) m Hwf Hv Hm). unfold get_all in R. cbn [is index_struct s_fields get_fields] in R.
  unfold get_index. destruct (get_field b e (mkField U64 0 bits) m) as [x| | |]; try discriminate R. apply yields_ret. exact I.
Qed.
Lemma mav_at_yields v i : mav_ok v -> sl_len (ma_index v) <= 2 ^ (W - 1) - 1 ->
  yields (mav_at_w W b e size bits v i) (fun d => slice_ok d /\ view_inside (ma_data v) d).
Proof.
  intros (H1 & H2) Hl. unfold mav_at_w, uadd_w. eapply yields_bind; [apply index_yields; auto|]. intros x _.
  eapply yields_bind; [apply wrap_yields|]. intros j _. eapply yields_bind; [apply index_yields; auto|]. intros y _.
  apply range_yields, H2.
Qed.
Lemma mav_slice_yields v lo hi : mav_ok v ->
  yields (mav_slice_w W b size bits v lo hi) (fun w => mav_ok w /\ ma_data w = ma_data v /\ view_inside (ma_index v) (ma_index w)).
Proof.
  intros (H1 & H2). unfold mav_slice_w, uadd_w. fold is.
  eapply yields_bind with (P := fun _ => True).
  { destruct lo; [apply yields_ret; auto| |apply yields_ret; auto]. eapply yields_weaken; [apply wrap_yields|auto]. }
  intros x _. eapply yields_bind with (P := fun _ => True).
  { destruct hi; [| |apply yields_ret; auto]; (eapply yields_weaken; [apply wrap_yields|auto]). }
  intros y _. eapply yields_bind; [apply slice_yields, H1|]. intros i (Hi & Hi'). apply yields_ret. cbn. split; [split; auto|auto].
Qed.
Lemma mav_step_yields c v : mav_ok v -> sl_len (ma_index v) <= 2 ^ (W - 1) - 1 ->
  yields (mav_step_w W b e size bits c v) (fun x => mav_ok (snd x) /\ ma_data (snd x) = ma_data v /\
    view_inside (ma_index v) (ma_index (snd x)) /\ forall d, fst x = Some d -> slice_ok d /\ view_inside (ma_data v) d).
Proof.
  intros Hv Hl. assert (Hi := view_inside_refl (ma_index v) (proj1 Hv)).
  assert (No : yields (Ret (None : option slice, v)) (fun x => mav_ok (snd x) /\ ma_data (snd x) = ma_data v /\
    view_inside (ma_index v) (ma_index (snd x)) /\ forall d, fst x = Some d -> slice_ok d /\ view_inside (ma_data v) d)).
  { apply yields_ret. split; auto. split; auto. split; auto. discriminate. }
  destruct c as [i|lo hi| |]; cbn [mav_step_w].
  - eapply yields_bind; [apply mav_at_yields; auto|]. intros m Hm. apply yields_ret. split; auto. split; auto. split; auto. cbn [fst]. intros d [= <-]. exact Hm.
  - eapply yields_bind; [apply mav_slice_yields; auto|]. intros w (Hw & Hd & Hw'). apply yields_ret. split; auto. split; auto. split; auto. discriminate.
  - unfold mav_next_w, mav_is_empty_w, mav_len_w, usub_w. eapply yields_bind with (P := fun _ => True).
    { eapply yields_bind; [apply wrap_yields|]. intros. apply yields_ret. auto. }
    intros x _. destruct (negb x); [|exact No]. eapply yields_bind; [apply mav_at_yields; auto|]. intros m Hm.
    eapply yields_bind; [apply mav_slice_yields; auto|]. intros w (Hw & Hd & Hw'). apply yields_ret. split; auto. split; auto. split; auto.
    cbn [fst]. intros d [= <-]. exact Hm.
  - unfold mav_next_back_w, mav_is_empty_w, mav_len_w, usub_w. eapply yields_bind with (P := fun _ => True).
    { eapply yields_bind; [apply wrap_yields|]. intros. apply yields_ret. auto. }
    intros x _. destruct (negb x); [|exact No]. eapply yields_bind; [apply wrap_yields|]. intros n _. eapply yields_bind; [apply wrap_yields|]. intros l _.
    eapply yields_bind; [apply mav_at_yields; auto|]. intros m Hm.
    eapply yields_bind; [apply mav_slice_yields; auto|]. intros w (Hw & Hd & Hw'). apply yields_ret. split; auto. split; auto. split; auto.
    cbn [fst]. intros d [= <-]. exact Hm.
Qed.
Lemma mav_calls_yields calls : forall v, mav_ok v -> sl_len (ma_index v) <= 2 ^ (W - 1) - 1 ->
  yields (mav_calls_w W b e size bits calls v) (fun x => mav_ok (snd x) /\ ma_data (snd x) = ma_data v /\
    view_inside (ma_index v) (ma_index (snd x)) /\ Forall (fun d => slice_ok d /\ view_inside (ma_data v) d) (fst x)).
Proof.
  induction calls as [|c r IH]; intros v Hv Hl; cbn [mav_calls_w].
  - apply yields_ret. split; auto. split; auto. split; [apply view_inside_refl, Hv|constructor].
  - eapply yields_bind; [apply mav_step_yields; auto|]. intros [o w] (Hw & Hd & Hi & Ho). cbn [fst snd] in *. assert (H := inside_len _ _ Hi).
    eapply yields_bind; [apply (IH w); auto; lia|]. intros [ms w'] (Hw' & Hd' & Hi' & Hm). cbn [fst snd] in *. rewrite Hd in *.
    apply yields_ret. cbn [fst snd]. split; auto. split; auto. split; [eapply view_inside_trans; eauto; apply Hv|].
    destruct o; auto.
Qed.
End Multi.
End Width.

(** * Reading a vector *)
Section Vec.
Variable W : Z.
Hypothesis HW : 1 <= W <= 64.
Lemma fit_len b s data : 8 <= len data <= 2 ^ (W - 1) - 1 -> vec_len_w W b s data = vec_len b s data.
Proof.
  destruct (pow_1 W HW) as (P1 & P2 & P3). intros H. unfold vec_len_w, vec_len, vec_size_in_bytes_w, vec_size_in_bytes, usub_w, usub, PADDING_SIZE.
  rewrite wrap_ok by (unfold usize_limit; lia). unfold wrap_w. destruct (_ && _) eqn:E; [reflexivity|lia].
Qed.
Lemma fit_as_view b data : 8 <= len data <= 2 ^ (W - 1) - 1 -> vec_as_view_w W b data = vec_as_view b data.
Proof.
  destruct (pow_1 W HW) as (P1 & P2 & P3). intros H. unfold vec_as_view_w, vec_as_view, vec_size_in_bytes_w, vec_size_in_bytes, usub_w, usub, PADDING_SIZE.
  rewrite wrap_ok by (unfold usize_limit; lia). unfold wrap_w. destruct (_ && _) eqn:E; [reflexivity|lia].
Qed.
Lemma fit_at s data i : len data <= 2 ^ (W - 1) - 1 -> vec_at_w W Debug s data i = vec_at Debug s data i.
Proof.
  destruct (pow_1 W HW) as (P1 & P2 & P3). intros H. unfold vec_at_w, vec_at.
  eapply near_end; [apply (near_wrap W HW (len data)); lia|reflexivity|].
  intros z Hz. unfold slice_from, slice_range. cbn [whole sl_len]. destruct (_ && _) eqn:E; [lia|reflexivity].
Qed.
Lemma fit_at_release s data i m : vec_at_w W Debug s data i = Ret m -> vec_at_w W Release s data i = Ret m.
Proof.
  intros H. assert (A : agrees (vec_at_w W Debug s data i) (vec_at_w W Release s data i)).
  { unfold vec_at_w. apply agrees_bind; [apply wa_umul|]. intros p. right. reflexivity. }
  destruct A as [A|A]; congruence.
Qed.
End Vec.

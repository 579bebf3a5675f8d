(** Writers on a target of any width: if everything fits, either build does what
    the one for 64 bits does, whatever fails. *)
From Verif Require Import Base BaseFacts Codec Structs Views Storage Writers.
From Verif Require Import MultiSpec BufferFacts Width WidthFacts WidthWriters WidthVectors Conc.
From Verif Require WidthVecFacts.
Local Open Scope list_scope.
Local Open Scope Z_scope.

(** Both do the same, and what they return satisfies [Q]. *)
Definition fits {A} (m m' : M A) (Q : A -> Prop) : Prop := forall w, m w = m' w /\ forall a w', m' w = (Ret a, w') -> Q a.

Lemma fits_bind {A B} (m m' : M A) (f g : A -> M B) Q R : fits m m' Q -> (forall a, Q a -> fits (f a) (g a) R) -> fits (mbind m f) (mbind m' g) R.
Proof.
  intros H1 H2 w. destruct (H1 w) as (E & P). unfold mbind. rewrite E. destruct (m' w) as [[a| | |] w1].
  - apply H2. eapply P. reflexivity.
  - split; [reflexivity|intros; discriminate].
  - split; [reflexivity|intros; discriminate].
  - split; [reflexivity|intros; discriminate].
Qed.
Lemma fits_ret {A} (a : A) (Q : A -> Prop) : Q a -> fits (mret a) (mret a) Q.
Proof. intros H w. split; auto. unfold mret. intros a' w' E. injection E as <- _. exact H. Qed.
Lemma fits_lift {A} (o o' : outcome A) (Q : A -> Prop) : o = o' -> (forall a, o' = Ret a -> Q a) -> fits (lift o) (lift o') Q.
Proof. intros -> H w. split; auto. unfold lift. intros a w' E. injection E as E _. auto. Qed.
Lemma fits_self {A} (m : M A) : fits m m (fun _ => True).
Proof. intros w. auto. Qed.
Lemma fits_lift_self {A} (o : outcome A) : fits (lift o) (lift o) (fun a => o = Ret a).
Proof. apply fits_lift; auto. Qed.
Lemma fits_try {A B E F} (c : E -> F) (m m' : M (result A E)) (f g : A -> M (result B F)) Q (R : result B F -> Prop) : fits m m' Q ->
  (forall a, Q (Ok a) -> fits (f a) (g a) R) -> (forall x, R (Er x)) -> fits (mtry c m f) (mtry c m' g) R.
Proof.
  intros H1 H2 H3. eapply fits_bind; [exact H1|]. intros [a|x] Ha; [apply H2, Ha|]. apply fits_ret, H3.
Qed.
Lemma fits_weaken {A} (m m' : M A) (Q R : A -> Prop) : fits m m' Q -> (forall a, Q a -> R a) -> fits m m' R.
Proof. intros H HR w. destruct (H w) as (E & P). split; auto. intros a w' Ea. eapply HR, P, Ea. Qed.

Section Width.
Variable W : Z.
Hypothesis HW : 1 <= W <= 64.
Variables (b : build) (e : endian) (lim : Z).

Lemma bounds : 0 < 2 ^ W /\ 2 ^ W <= usize_limit /\ isize_max_w W < 2 ^ W /\ isize_max_w W <= isize_max /\ isize_max < usize_limit.
Proof.
  unfold isize_max_w, usize_limit, isize_max.
  assert (0 < 2 ^ W) by (apply Z.pow_pos_nonneg; lia). assert (2 ^ W <= 2 ^ 64) by (apply Z.pow_le_mono_r; lia).
  assert (2 ^ (W - 1) <= 2 ^ 63) by (apply Z.pow_le_mono_r; lia). assert (2 ^ (W - 1) < 2 ^ W) by (apply Z.pow_lt_mono_r; lia). lia.
Qed.
Ltac bnd := pose proof bounds as (B1 & B2 & B3 & B4 & B5).
Lemma add_fits x y : 0 <= x + y < 2 ^ W -> fits (lift (uadd_w W b x y)) (lift (uadd b x y)) (fun z => z = x + y).
Proof.
  intros H. bnd. unfold uadd_w, uadd. rewrite wrap_w_ok by lia. rewrite wrap_ok by lia. apply fits_lift; auto. intros a E. congruence.
Qed.
Lemma sub_fits x y : 0 <= x - y < 2 ^ W -> fits (lift (usub_w W b x y)) (lift (usub b x y)) (fun z => z = x - y).
Proof.
  intros H. bnd. unfold usub_w, usub. rewrite wrap_w_ok by lia. rewrite wrap_ok by lia. apply fits_lift; auto. intros a E. congruence.
Qed.

(** * Handles *)
Lemma write_fits h d : 0 <= h_size h -> h_size h + len d < 2 ^ W -> fits (handle_write_w W b h d) (handle_write b h d)
  (fun r => h_size (snd r) = match fst r with Ok _ => h_size h + len d | Er _ => h_size h end).
Proof.
  intros H0 H1. pose proof (len_nonneg d). unfold handle_write_w, handle_write. destruct (h_stream h) as [s|].
  - eapply fits_bind; [apply fits_self|]. intros [[u|k] s'] _.
    + eapply fits_bind; [apply add_fits; lia|]. intros n ->. apply fits_ret. reflexivity.
    + apply fits_ret. reflexivity.
  - apply fits_ret. reflexivity.
Qed.
Lemma writes_fit cs : forall h, 0 <= h_size h -> h_size h + len (List.concat cs) < 2 ^ W ->
  fits (handle_writes_w W b cs h) (handle_writes b cs h) (fun _ => True).
Proof.
  induction cs as [|c cs IH]; intros h H0 H1; cbn [handle_writes_w handle_writes List.concat] in *; [apply fits_self|].
  rewrite len_app in H1. pose proof (len_nonneg c). pose proof (len_nonneg (List.concat cs)).
  eapply fits_bind; [apply write_fits; lia|]. intros [[u|k] h'] E; cbn [fst snd] in E; [|apply fits_self]. apply IH; lia.
Qed.
Lemma create_fits st name schema : fits (create_handle b e st name schema) (create_handle b e st name schema)
  (fun r => match r with Ok h => h_size h = 0 | Er _ => True end).
Proof.
  unfold create_handle.
  repeat (eapply fits_try; [apply fits_self| |auto]; intros ? _).
  unfold handle_try_new, stry. eapply fits_bind; [apply fits_self|]. intros [[u|k] s'] _; apply fits_ret; reflexivity || exact I.
Qed.
Lemma stream_fits st name schema cs : len (List.concat cs) < 2 ^ W ->
  forall w, stream_w W b e st name schema cs w = stream_resource b e st name schema cs w.
Proof.
  intros H w. refine (proj1 ((_ : fits _ _ (fun _ => True)) w)). unfold stream_w, stream_resource.
  eapply fits_try; [apply create_fits| |auto]. intros h E. cbv beta iota in E.
  eapply fits_try; [apply writes_fit; lia| |auto]. intros h' _. apply fits_self.
Qed.

(** * External vectors *)
Definition held (v : ext_vec) : Z := h_size (ev_handle v) + len (ev_data v) - 8.
Definition sound (v : ext_vec) : Prop := 8 <= len (ev_data v) /\ 0 <= h_size (ev_handle v) /\ 0 <= ev_len v.

Lemma slice_len d n s : slice_range (whole d) 0 n = Ret s -> len (sl_bytes s) = n.
Proof.
  unfold slice_range, whole. cbn [sl_len sl_mem]. destruct (Z.leb_spec 0 n) as [H1|]; [|discriminate].
  destruct (Z.leb_spec n (len d)) as [H2|]; [|rewrite andb_false_r; discriminate]. cbn. intros H. injection H as <-.
  unfold sl_bytes. cbn [sl_mem sl_len]. unfold len in *. rewrite firstn_length. lia.
Qed.
Lemma flush_fits v : sound v -> held v < 2 ^ W -> fits (ev_flush_w W b v) (ev_flush b v) (fun r => sound (snd r) /\ held (snd r) = held v /\
  ev_len (snd r) = ev_len v /\ match fst r with Ok _ => len (ev_data (snd r)) = 8 | Er _ => True end).
Proof.
  intros (S1 & S2 & S3) H. unfold held in *. unfold ev_flush_w, ev_flush.
  eapply fits_bind; [apply sub_fits; unfold PADDING_SIZE; lia|]. intros n ->.
  eapply fits_bind; [apply fits_lift_self|]. intros d E. apply slice_len in E. unfold PADDING_SIZE in *.
  eapply fits_bind; [apply write_fits; lia|]. intros [[u|k] h] Eh; cbn [fst snd] in Eh; apply fits_ret; unfold sound; cbn [fst snd ev_data ev_len ev_handle].
  - change (len (zeros 8)) with 8. repeat split; lia.
  - repeat split; lia.
Qed.
Lemma grow_fits s v : 0 <= s_size s -> Z.min (Z.max lim 8) (held v + 8) + s_size s <= isize_max_w W -> sound v -> held v < 2 ^ W -> ev_len v + 1 < 2 ^ W ->
  fits (ev_grow_w W b lim s v) (ev_grow b lim s v) (fun r => sound (snd r) /\ match fst r with
    | Ok _ => held (snd r) = held v + s_size s /\ ev_len (snd r) = ev_len v + 1 | Er _ => held (snd r) = held v end).
Proof.
  intros Hs Hl Sv Hh Hn. bnd. unfold ev_grow_w, ev_grow.
  eapply (fits_bind _ _ _ _ (fun r => sound (snd r) /\ held (snd r) = held v /\ ev_len (snd r) = ev_len v /\
    match fst r with Ok _ => len (ev_data (snd r)) <= Z.max lim 8 | Er _ => True end)).
  - destruct (Z.ltb_spec lim (len (ev_data v))) as [H|H].
    + eapply fits_weaken; [apply flush_fits; auto|]. intros [[u|k] v'] (A1 & A2 & A3 & A4); cbn [fst snd] in *; repeat split; try apply A1; auto; lia.
    + apply fits_ret. cbn [fst snd]. split; [exact Sv|]. repeat split; lia.
  - intros [[u|k] v1] (A1 & A2 & A3 & A4); cbn [fst snd] in *; [|apply fits_ret; cbn [fst snd]; auto].
    cbv zeta. destruct A1 as (S1 & S2 & S3). unfold held in *.
    eapply fits_bind; [apply add_fits; lia|]. intros n ->.
    eapply (fits_bind _ _ _ _ (fun d => len d = len (ev_data v1) + s_size s)).
    { apply fits_lift; [apply (WidthVecFacts.resize_w W HW); lia|]. intros d E. apply resize_len in E; lia. }
    intros d Ld. eapply fits_bind; [apply add_fits; lia|]. intros l ->.
    eapply fits_bind; [apply sub_fits; unfold PADDING_SIZE; lia|]. intros p ->.
    eapply fits_bind; [apply fits_self|]. intros x _. apply fits_ret. unfold sound. cbn [fst snd ev_data ev_len ev_handle]. repeat split; lia.
Qed.
Lemma set_fits s sets p v : sound v -> fits (ev_set b e s sets p v) (ev_set b e s sets p v) (fun v' => sound v' /\ held v' = held v /\ ev_len v' = ev_len v).
Proof.
  intros (S1 & S2 & S3). unfold ev_set. eapply fits_bind; [apply fits_lift_self|]. intros d E. apply through_len in E.
  apply fits_ret. unfold sound, held. cbn [ev_data ev_len ev_handle]. repeat split; lia.
Qed.
Lemma fill_fits s els : 0 <= s_size s -> Z.max lim 8 + s_size s <= isize_max_w W -> forall v, sound v ->
  held v + Z.of_nat (List.length els) * s_size s < 2 ^ W -> ev_len v + Z.of_nat (List.length els) < 2 ^ W ->
  fits (ev_fill_w W b e lim s els v) (ev_fill b e lim s els v) (fun r => match r with Ok v' => sound v' /\ held v' < 2 ^ W | Er _ => True end).
Proof.
  intros Hs Hl. induction els as [|x els IH]; intros v Sv H1 H2; cbn [ev_fill_w ev_fill List.length] in *.
  - apply fits_ret. split; [exact Sv|lia].
  - rewrite Nat2Z.inj_succ in *. eapply fits_bind; [apply grow_fits; auto; try nia|].
    intros [[p|k] v1] (A1 & A2); cbn [fst snd] in *.
    + eapply fits_bind; [apply set_fits, A1|]. intros v2 (C1 & C2 & C3). apply IH; [exact C1|lia|lia].
    + eapply fits_bind; [apply fits_self|]. intros ? _. apply fits_ret. exact I.
Qed.
Lemma finish_fits v : sound v -> held v < 2 ^ W -> fits (ev_finish_w W b e v) (ev_finish b e v) (fun _ => True).
Proof.
  intros S H. unfold ev_finish_w, ev_finish. eapply fits_bind; [apply flush_fits; auto|]. intros [[u|k] v1] _; apply fits_self.
Qed.
Lemma create_ev_fits st name schema : fits (create_external_vector b e st name schema) (create_external_vector b e st name schema)
  (fun r => match r with Ok v => sound v /\ held v = 0 /\ ev_len v = 0 | Er _ => True end).
Proof.
  unfold create_external_vector. eapply fits_try; [apply create_fits| |auto]. intros h E. cbv beta iota in E. apply fits_ret.
  unfold sound, held, ev_new. cbn [ev_data ev_len ev_handle]. change (len (zeros PADDING_SIZE)) with 8. repeat split; lia.
Qed.
Lemma vector_fits s st name schema els : 0 < s_size s -> Z.max lim 8 + s_size s <= isize_max_w W -> Z.of_nat (List.length els) * s_size s < 2 ^ W ->
  forall w, vector_session_w W b e lim s st name schema els w = vector_session b e lim s st name schema els w.
Proof.
  intros Hs Hl H w. refine (proj1 ((_ : fits _ _ (fun _ => True)) w)). unfold vector_session_w, vector_session.
  eapply fits_try; [apply create_ev_fits| |auto]. intros v (A1 & A2 & A3).
  eapply fits_try; [apply fill_fits; auto; try nia| |auto]. intros v' (C1 & C2). apply finish_fits; auto.
Qed.

(** * Multivectors *)
Definition mheld (v : multi_vec) : Z := mv_flushed v + len (mv_data v).
Definition msound (v : multi_vec) : Prop := 8 <= len (mv_data v) /\ h_size (mv_handle v) = mv_flushed v /\ 0 <= mv_flushed v.

Lemma mflush_fits v : msound v -> mheld v < 2 ^ W -> fits (mv_flush_w W b v) (mv_flush b v) (fun r => msound (snd r) /\ mheld (snd r) = mheld v /\
  mv_index (snd r) = mv_index v /\ match fst r with Ok _ => len (mv_data (snd r)) = 8 | Er _ => True end).
Proof.
  intros (S1 & S2 & S3) H. unfold mheld in *. unfold mv_flush_w, mv_flush.
  eapply fits_bind; [apply sub_fits; unfold PADDING_SIZE; lia|]. intros n ->.
  eapply fits_bind; [apply fits_lift_self|]. intros d E. apply slice_len in E. unfold PADDING_SIZE in *.
  eapply fits_bind; [apply write_fits; lia|]. intros [[u|k] h] Eh; cbn [fst snd] in Eh.
  - eapply fits_bind; [apply add_fits; lia|]. intros f ->. apply fits_ret. unfold msound; cbn [fst snd mv_data mv_index mv_handle mv_flushed].
    change (len (zeros 8)) with 8. repeat split; lia.
  - apply fits_ret. unfold msound; cbn [fst snd mv_data mv_index mv_handle mv_flushed]. repeat split; lia.
Qed.
Lemma index_fits size bits v : 0 <= size -> Z.min (Z.max lim 8) (held (mv_index v) + 8) + size <= isize_max_w W -> msound v -> mheld v < 2 ^ W ->
  sound (mv_index v) -> held (mv_index v) < 2 ^ W -> ev_len (mv_index v) + 1 < 2 ^ W ->
  fits (mv_add_to_index_w W b e lim size bits v) (mv_add_to_index b e lim size bits v) (fun r => msound (snd r) /\ mheld (snd r) = mheld v /\
    mv_data (snd r) = mv_data v /\ sound (mv_index (snd r)) /\ match fst r with
    | Ok _ => held (mv_index (snd r)) = held (mv_index v) + size /\ ev_len (mv_index (snd r)) = ev_len (mv_index v) + 1 | Er _ => True end).
Proof.
  intros Hs Hl Sv Hm Si Hi Hn. unfold mv_add_to_index_w, mv_add_to_index. cbv zeta.
  eapply fits_bind; [apply grow_fits; auto|]. intros [[p|k] i] (A1 & A2); cbn [fst snd] in *.
  - destruct Sv as (S1 & S2 & S3). unfold mheld in *. cbn [index_struct s_size] in A2.
    eapply fits_bind; [apply add_fits; lia|]. intros x ->. eapply fits_bind; [apply sub_fits; unfold PADDING_SIZE; lia|]. intros x ->.
    eapply fits_bind; [apply set_fits, A1|]. intros i' (C1 & C2 & C3). apply fits_ret. unfold msound, mheld.
    cbn [fst snd mv_data mv_index mv_handle mv_flushed]. split; [repeat split; lia|]. split; [reflexivity|]. split; [reflexivity|]. split; [exact C1|lia].
  - apply fits_ret. unfold msound, mheld. cbn [fst snd mv_data mv_index mv_handle mv_flushed]. split; [exact Sv|]. repeat split; try apply A1; auto.
Qed.
Lemma mgrow_fits size bits v : 0 <= size -> Z.min (Z.max lim 8) (held (mv_index v) + 8) + size <= isize_max_w W -> msound v -> mheld v < 2 ^ W ->
  sound (mv_index v) -> held (mv_index v) < 2 ^ W -> ev_len (mv_index v) + 1 < 2 ^ W ->
  fits (mv_grow_w W b e lim size bits v) (mv_grow b e lim size bits v) (fun r => msound (snd r) /\ mheld (snd r) = mheld v /\
    match fst r with
    | Ok _ => len (mv_data (snd r)) <= Z.max lim 8 /\ sound (mv_index (snd r)) /\
        held (mv_index (snd r)) = held (mv_index v) + size /\ ev_len (mv_index (snd r)) = ev_len (mv_index v) + 1
    | Er _ => True end).
Proof.
  intros Hs Hl Sv Hm Si Hi Hn. unfold mv_grow_w, mv_grow.
  eapply (fits_bind _ _ _ _ (fun r => msound (snd r) /\ mheld (snd r) = mheld v /\ mv_index (snd r) = mv_index v /\
    match fst r with Ok _ => len (mv_data (snd r)) <= Z.max lim 8 | Er _ => True end)).
  - destruct (Z.ltb_spec lim (len (mv_data v))) as [H|H].
    + eapply fits_weaken; [apply mflush_fits; auto|]. intros [[u|k] v'] (A1 & A2 & A3 & A4); cbn [fst snd] in *; repeat split; try apply A1; auto; lia.
    + apply fits_ret. cbn [fst snd]. split; [exact Sv|]. repeat split; lia.
  - intros [[u|k] v1] (A1 & A2 & A3 & A4); cbn [fst snd] in *; [|apply fits_ret; cbn [fst snd]; auto].
    eapply fits_weaken; [apply index_fits; rewrite ?A3, ?A2; auto|]. rewrite A3.
    intros [[u'|k] v2] (C1 & C2 & C3 & C4 & C5); cbn [fst snd] in *; rewrite ?C3; split; auto; split; try lia; auto.
Qed.
Lemma item_fits ts t sets data : 8 <= len data -> 0 <= s_size (v_struct ts t) -> len data + (1 + s_size (v_struct ts t)) <= isize_max_w W ->
  item_add_w W b e ts t sets data = item_add b e ts t sets data.
Proof. intros. apply WidthVecFacts.item_add_same; auto. Qed.
Lemma items_fit ts items : Forall (fun x => 0 <= s_size (v_struct ts (fst x))) items -> forall data, 8 <= len data ->
  len data + items_size ts items <= isize_max_w W -> items_add_w W b e ts items data = items_add b e ts items data.
Proof.
  bnd. induction 1 as [|[t sets] items Ht Hr IH]; intros data H1 H2; cbn [items_add_w items_add items_size fst] in *; [reflexivity|].
  assert (Nn : 0 <= items_size ts items). { clear - Hr. induction Hr; cbn [items_size]; lia. }
  rewrite item_fits by lia. destruct (item_add b e ts t sets data) as [d| | |] eqn:E; cbn [obind]; auto.
  apply item_add_len in E; [|lia|lia]. apply IH; lia.
Qed.
Lemma madd_fits ts items v : Forall (fun x => 0 <= s_size (v_struct ts (fst x))) items -> msound v ->
  len (mv_data v) + items_size ts items <= isize_max_w W ->
  fits (mv_add_w W b e ts items v) (mv_add b e ts items v) (fun v' => msound v' /\ mheld v' = mheld v + items_size ts items /\ mv_index v' = mv_index v).
Proof.
  intros Hi (S1 & S2 & S3) H. bnd. unfold mv_add_w, mv_add.
  assert (Nn : 0 <= items_size ts items). { clear - Hi. induction Hi; cbn [items_size]; lia. }
  eapply (fits_bind _ _ _ _ (fun d => len d = len (mv_data v) + items_size ts items)).
  { apply fits_lift; [apply items_fit; auto|]. intros d E. apply items_add_len in E; auto. lia. }
  intros d Ld. apply fits_ret. unfold msound, mheld. cbn [mv_data mv_index mv_handle mv_flushed]. repeat split; lia.
Qed.
Definition all_size (ts : vdesc) (els : list (list (nat * list (nat * Z)))) : Z := fold_right Z.add 0 (map (items_size ts) els).
Lemma mfill_fits size bits ts els : 0 <= size -> Z.max lim 8 + size <= isize_max_w W ->
  Forall (fun items => Forall (fun x => 0 <= s_size (v_struct ts (fst x))) items /\ Z.max lim 8 + items_size ts items <= isize_max_w W) els ->
  forall v, msound v -> sound (mv_index v) -> mheld v + all_size ts els < 2 ^ W ->
  held (mv_index v) + Z.of_nat (List.length els) * size < 2 ^ W -> ev_len (mv_index v) + Z.of_nat (List.length els) < 2 ^ W ->
  fits (mv_fill_w W b e lim size bits ts els v) (mv_fill b e lim size bits ts els v) (fun r => match r with
    | Ok v' => msound v' /\ sound (mv_index v') /\ mheld v' = mheld v + all_size ts els /\
        held (mv_index v') = held (mv_index v) + Z.of_nat (List.length els) * size /\ ev_len (mv_index v') = ev_len (mv_index v) + Z.of_nat (List.length els)
    | Er _ => True end).
Proof.
  intros Hs Hl. induction 1 as [|items els (Hi & Hx) Hr IH]; intros v Sv Si H1 H2 H3; cbn [mv_fill_w mv_fill List.length] in *.
  - apply fits_ret. unfold all_size in *. cbn in *. repeat split; try apply Sv; try apply Si; lia.
  - rewrite Nat2Z.inj_succ in *. unfold all_size in *. cbn [map fold_right] in *.
    assert (Nn : forall its, Forall (fun x => 0 <= s_size (v_struct ts (fst x))) its -> 0 <= items_size ts its).
    { clear. intros its Hi. induction Hi; cbn [items_size]; lia. }
    assert (Na : 0 <= fold_right Z.add 0 (map (items_size ts) els)).
    { clear - Hr Nn. induction Hr as [|a l (Ha & _) _ IHl]; cbn; [lia|]. specialize (Nn a Ha). lia. }
    specialize (Nn items Hi).
    eapply fits_bind; [apply mgrow_fits; auto; try nia|]. intros [[u|k] v1] (A1 & A2 & A3); cbn [fst snd] in *.
    + destruct A3 as (A3 & A4 & A5 & A6). eapply fits_bind; [apply madd_fits; auto; lia|]. intros v2 (C1 & C2 & C3).
      eapply fits_weaken; [apply IH; rewrite ?C3; auto; lia|]. rewrite C3. intros [v3|x]; auto. intros (D1 & D2 & D3 & D4 & D5).
      repeat split; try apply D1; try apply D2; lia.
    + eapply fits_bind; [apply fits_self|]. intros ? _. apply fits_ret. exact I.
Qed.
Lemma mfinish_fits size bits v : 0 <= size -> Z.min (Z.max lim 8) (held (mv_index v) + 8) + size <= isize_max_w W -> msound v -> mheld v < 2 ^ W ->
  sound (mv_index v) -> held (mv_index v) + size < 2 ^ W -> ev_len (mv_index v) + 1 < 2 ^ W ->
  fits (mv_finish_w W b e lim size bits v) (mv_finish b e lim size bits v) (fun _ => True).
Proof.
  intros Hs Hl Sv Hm Si Hi Hn. unfold mv_finish_w, mv_finish. cbv zeta.
  eapply fits_bind; [apply index_fits; auto; lia|]. intros [[u|k] v1] (A1 & A2 & A3 & A4 & A5); cbn [fst snd] in *; [|apply fits_self].
  eapply fits_bind; [apply mflush_fits; auto; lia|]. intros [[u'|k] v2] (C1 & C2 & C3 & C4); cbn [fst snd] in *; [|apply fits_self].
  eapply fits_bind; [apply finish_fits; rewrite C3; auto; lia|]. intros [x|x] _; apply fits_self.
Qed.
Lemma create_mv_fits st name schema : fits (create_multi_vector b e st name schema) (create_multi_vector b e st name schema)
  (fun r => match r with Ok v => msound v /\ mheld v = 8 /\ sound (mv_index v) /\ held (mv_index v) = 0 /\ ev_len (mv_index v) = 0 | Er _ => True end).
Proof.
  unfold create_multi_vector. eapply fits_try; [apply create_ev_fits| |auto]. intros i (A1 & A2 & A3).
  eapply fits_bind; [apply create_fits|]. intros [h|k] E.
  - apply fits_ret. unfold msound, mheld, mv_new. cbn [mv_data mv_index mv_handle mv_flushed].
    change (len (zeros PADDING_SIZE)) with 8. repeat split; try apply A1; lia.
  - eapply fits_bind; [apply fits_self|]. intros ? _. apply fits_ret. exact I.
Qed.
Lemma multi_fits size bits ts st name schema els : 0 < size -> Z.max lim 8 + size <= isize_max_w W ->
  Forall (fun items => Forall (fun x => 0 <= s_size (v_struct ts (fst x))) items /\ Z.max lim 8 + items_size ts items <= isize_max_w W) els ->
  8 + all_size ts els < 2 ^ W -> (Z.of_nat (List.length els) + 1) * size < 2 ^ W ->
  forall w, multi_session_w W b e lim size bits ts st name schema els w = multi_session b e lim size bits ts st name schema els w.
Proof.
  intros Hs Hl Hi H1 H2 w. refine (proj1 ((_ : fits _ _ (fun _ => True)) w)). unfold multi_session_w, multi_session.
  eapply fits_try; [apply create_mv_fits| |auto]. intros v (A1 & A2 & A3 & A4 & A5).
  eapply fits_try; [apply mfill_fits; auto; try nia| |auto]. intros v' (C1 & C2 & C3 & C4 & C5).
  apply mfinish_fits; auto; nia.
Qed.
End Width.

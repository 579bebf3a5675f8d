(** What writers say about themselves: lengths, sizes, texts. *)
From Verif Require Import Base BaseFacts Codec CodecSpec Structs StructsSpec Views ViewsSpec.
From Verif Require Import Storage PathFacts StorageSpec StorageFacts StorageMore Writers HandleFacts WritersSpec EncodeFacts ElsewhereFacts ExtVecFacts ExtVecUse.
From Verif Require Import MultiViews MultiSpec MultiViewFacts MultiVecFacts MultiVecUse Text TextSpec TextFacts.
Local Open Scope string_scope.
Local Open Scope list_scope.
Local Open Scope Z_scope.

Lemma handle_close_size b e h w r h' w' : handle_close b e h w = (Ret (Ok r, h'), w') -> h_size h' = h_size h.
Proof.
  unfold handle_close. destruct (h_stream h) as [s|]; [|unfold mret; discriminate].
  unfold mbind. intros R.
  destruct (write_padding s w) as [[[[u|k] s1]| | |] w1]; try discriminate.
  destruct (seek_start s1 w1) as [[[[u2|k] s2]| | |] w2]; try discriminate.
  destruct (write_size b e (h_size h) s2 w2) as [[[[u3|k] s3]| | |] w3]; try discriminate.
  destruct (read b e (h_storage h) (h_name h) (h_schema h) w3) as [[d| | |] w4]; try discriminate.
  unfold mret in R. inversion R; subst; reflexivity.
Qed.

Lemma handle_text_of h x n : is_open h = x -> h_size h = n ->
  handle_text h = "ResourceHandle { is_open: " +++ bool_text x +++ ", size_in_bytes: " +++ dec n +++ " }".
Proof. intros <- <-. reflexivity. Qed.

Lemma writing_size st name schema h w W c : writing st name schema h w W c -> h_size h = len W.
Proof. intros (s & _ & _ & _ & _ & E & _). exact E. Qed.

Lemma app_firstn {A} (x y d : list A) : d = x ++ y -> firstn (List.length x) d = x.
Proof. intros ->. rewrite firstn_app, Nat.sub_diag, firstn_all, app_nil_r. reflexivity. Qed.

Lemma ev_counts b e lim st name schema s ops w v w1 flags v' w2 :
  wf_struct s -> maps_ok w -> fresh_name st name w ->
  Forall (ev_op_ok st name s) ops -> grows ops * s_size s + 16 <= isize_max ->
  create_external_vector b e st name schema w = (Ret (Ok v), w1) ->
  ev_run b e lim s ops v w1 = (Ret (flags, v'), w2) ->
  let n := Z.of_nat (List.length (kept ops flags)) in
  ev_len v' = n /\ ev_is_open v' = true /\
  (exists d c, array_of s d (elements s (kept ops flags)) /\ h_size (ev_handle v') <= len d /\
     bytes_at (cell_at st name) w2 = Some c /\ 8 + h_size (ev_handle v') <= len c /\
     (Forall (eq true) flags -> c = zeros 8 ++ firstn (Z.to_nat (h_size (ev_handle v'))) d)) /\
  (forall v2 w3 r h w4, ev_flush b v' w2 = (Ret (Ok tt, v2), w3) -> handle_close b e (ev_handle v2) w3 = (Ret (Ok r, h), w4) ->
     is_open h = false /\ h_size h = n * s_size s).
Proof.
  intros Hwf MO F Ops HL C R n. pose proof Hwf as (Hpos & _).
  destruct (create_ev_cases b e st name schema s w _ w1 F C) as (S1 & X).
  destruct X as [(v0 & E0 & I1)|(_ & Fo & _)]; [|destruct Fo as [(k & ?)|?]; discriminate].
  injection E0 as <-. assert (MO1 : maps_ok w1) by (eapply maps_ok_caches; [apply S1|auto]).
  destruct (ev_run_cases b e lim s st name schema ops Hwf Ops v w1 [] [] [] (zeros 8) _ w2 I1 MO1 ltac:(simpl; lia) R)
    as (MO2 & X).
  destruct X as [(fl & v1 & W & rest & c & E1 & Lf & I2 & C2 & _)|(E1 & _)]; [|discriminate].
  injection E1 as <- <-. simpl app in I2.
  assert (Bs := ev_inv_bytes _ _ _ _ _ _ _ _ _ _ I2). destruct Bs as (BW & Br & Lr).
  rewrite elements_length in Lr. pose proof (kept_le ops flags).
  pose proof I2 as (D1 & D2 & Bc & (ms & Em & G) & Hw). rewrite elements_length in D2.
  assert (Sz := writing_size _ _ _ _ _ _ _ Hw). destruct (writing_loose _ _ _ _ _ _ _ Hw) as (_ & Lo & _).
  split; [exact D2|]. split; [exact (writing_open _ _ _ _ _ _ _ Hw)|]. split.
  - exists (W ++ rest), c. rewrite Sz. split; [exists ms; split; [exact Em|apply goods_encodes; exact G]|].
    split; [rewrite len_app; pose proof (len_nonneg rest); lia|]. split; [eapply writing_bytes; eauto|]. split; [lia|].
    intros Ht. rewrite (C2 eq_refl Ht). unfold len. rewrite Nat2Z.id, firstn_app, Nat.sub_diag, firstn_all. simpl. rewrite app_nil_r. reflexivity.
  - intros v2 w3 r h w4 Fl Hc.
    destruct (ev_flush_cases b st name schema s v' w2 _ W rest c _ w3 I2 ltac:(nia) Fl) as (_ & X).
    destruct X as [(v3 & E3 & I3)|(_ & _ & [(k & v3 & d & E3 & _)|(E3 & _)])]; try discriminate. injection E3 as <-.
    destruct I3 as (_ & _ & _ & _ & Hw3). split; [eapply handle_close_closed; eauto|].
    rewrite (handle_close_size _ _ _ _ _ _ _ Hc), (writing_size _ _ _ _ _ _ _ Hw3), len_app. exact Lr.
Qed.

Lemma buckets_length ts l : List.length (buckets ts l) = List.length l.
Proof. apply map_length. Qed.

Lemma mv_counts b e lim size bits ts st name schema ops w v w1 flags v' w2 :
  wf_struct (index_struct size bits) -> wf_vdesc ts -> valid_name name -> maps_ok w ->
  mv_fresh st name w -> Forall (mv_op_ok st name ts) ops -> mv_fits size bits ts ops ->
  create_multi_vector b e st name schema w = (Ret (Ok v), w1) ->
  mv_run b e lim size bits ts ops v w1 = (Ret (flags, v'), w2) ->
  ev_len (mv_index v') = Z.of_nat (List.length (mv_kept ops flags)) /\
  ev_is_open (mv_index v') = true /\ is_open (mv_handle v') = true /\
  exists bs c, Forall2 (bucket_of ts) bs (buckets ts (mv_kept ops flags)) /\
    h_size (mv_handle v') <= len (List.concat bs) /\
    bytes_at (cell_at st name) w2 = Some c /\ 8 + h_size (mv_handle v') <= len c /\
    (Forall (eq true) flags -> c = zeros 8 ++ firstn (Z.to_nat (h_size (mv_handle v'))) (List.concat bs)).
Proof.
  intros Hwi Hwf Hn MO F Ops (HB & HL & HI) C R. pose proof Hwi as (Hpos & _). change (s_size (index_struct size bits)) with size in Hpos.
  destruct (create_mv_cases b e size bits ts st name schema Hn w _ w1 F C) as (S1 & X).
  destruct X as [(v0 & E0 & I1)|(_ & [[(k & Fo)|Fo]|Fo] & _)]; try discriminate. injection E0 as <-.
  assert (MO1 : maps_ok w1) by (eapply maps_ok_caches; [apply S1|auto]).
  destruct (mv_run_cases b e lim size bits ts st name schema Hwi Hwf Hn ops Ops v w1 [] [] true _ w2 I1 MO1 ltac:(simpl; rewrite len_nil; lia)
    ltac:(simpl; rewrite len_nil; lia) ltac:(simpl; lia) R) as (MO2 & _ & X).
  destruct X as [(fl & v1 & bs & clean & E & Lf & I2 & A1 & A2 & C2 & _)|(E & _)]; [|discriminate]. injection E as <- <-.
  simpl app in I2. assert (Lb := mv_inv_length _ _ _ _ _ _ _ _ _ _ _ _ I2). rewrite buckets_length in Lb.
  destruct I2 as (Wi & ri & ci & Wd & rd & cd & (_ & Ln & _ & _ & Hwe) & _ & _ & _ & Ec & Fb & Hw & Cl).
  assert (Sz := writing_size _ _ _ _ _ _ _ Hw). destruct (writing_loose _ _ _ _ _ _ _ Hw) as (_ & Lo & _).
  split; [rewrite Ln, map_length, bounds_length; congruence|]. split; [exact (writing_open _ _ _ _ _ _ _ Hwe)|].
  split; [exact (writing_open _ _ _ _ _ _ _ Hw)|]. exists bs, cd. rewrite Sz. split; [exact Fb|].
  split; [rewrite <- Ec, len_app; pose proof (len_nonneg rd); lia|]. split; [eapply writing_bytes; eauto|]. split; [lia|].
  intros Ht. destruct (Cl (C2 eq_refl Ht)) as (_ & ->). rewrite <- Ec. unfold len.
  rewrite Nat2Z.id, firstn_app, Nat.sub_diag, firstn_all. simpl. rewrite app_nil_r. reflexivity.
Qed.

(** * Texts determine the numbers *)
Lemma ev_text_eq v v' : ev_text v = ev_text v' <-> ev_len v = ev_len v'.
Proof.
  unfold ev_text. split; [|intros ->; reflexivity]. intros H. apply app_s_inv in H.
  apply words_end in H; try apply dec_word; try reflexivity. apply dec_inj, H.
Qed.
Lemma bool_text_word x : word (bool_text x).
Proof. destruct x; split; try discriminate; repeat constructor. Qed.
Lemma handle_text_eq h h' : handle_text h = handle_text h' <-> is_open h = is_open h' /\ h_size h = h_size h'.
Proof.
  rewrite (handle_text_of h _ _ eq_refl eq_refl), (handle_text_of h' _ _ eq_refl eq_refl). split; [|intros [-> ->]; reflexivity].
  intros H. apply app_s_inv in H. apply words_end in H; try apply bool_text_word; try reflexivity. destruct H as [Hb H].
  apply app_s_inv in H. apply words_end in H; try apply dec_word; try reflexivity. split; [|apply dec_inj, H].
  destruct (is_open h), (is_open h'); try discriminate; reflexivity.
Qed.

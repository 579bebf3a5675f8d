(** Properties of external vectors, from creation to close. *)
From Verif Require Import Base BaseFacts Codec CodecSpec CodecFacts Structs StructsSpec StructsFacts.
From Verif Require Import Views ViewsSpec ViewsFacts Storage PathFacts StorageSpec.
From Verif Require Import StorageFacts StorageMore StorageUse Writers WritersSpec HandleFacts EncodeFacts ExtVecFacts.
Local Open Scope list_scope.
Local Open Scope Z_scope.
Local Arguments firstn : simpl never.
Local Arguments skipn : simpl never.

(** * create *)
Lemma fresh_uncached st name w : fresh_name st name w ->
  at_end st name w /\ start st name w = [] /\ at_end st (schema_name name) w /\ start st (schema_name name) w = [] /\
  uncached st name w /\ uncached st (schema_name name) w.
Proof.
  intros (U1 & U2). destruct (fresh_start _ _ _ U1). destruct (fresh_start _ _ _ U2).
  split; auto. split; auto. split; auto. split; auto. split; apply unused_uncached; auto.
Qed.

Lemma create_ev_cases b e st name schema s w o w' : fresh_name st name w ->
  create_external_vector b e st name schema w = (o, w') ->
  step (cells_of st name) w w' /\
  ((exists v, o = Ret (Ok v) /\ ev_inv st name schema s v w' [] [] [] (zeros 8)) \/
   (is_file st = true /\ failed o /\ (w_faults w = [] -> ~ unblocked st name w) /\
    create_progress st name schema w w')).
Proof.
  intros F R. destruct (fresh_uncached _ _ _ F) as (A1 & A2 & A3 & A4 & A5 & A6).
  unfold create_external_vector, mtry, mbind in R.
  destruct (create_handle b e st name schema w) as [o1 w1] eqn:E1.
  destruct (create_handle_cases _ _ _ _ _ _ _ _ A1 A2 A3 A4 A5 A6 E1) as (S1 & X).
  destruct X as [(h & -> & Hw)|(Hfile & Fo & N & P)].
  - cbn in R. injection R as <- <-. split; auto. left. eexists. split; [reflexivity|]. apply ev_inv_new. auto.
  - assert (w' = w1 /\ failed o) as [-> Fo2].
    { destruct Fo as [(k & ->)| ->]; cbn in R; injection R as <- <-; split; unfold failed; eauto. }
    split; auto.
Qed.

(** * Lengths *)
Lemma grows_nonneg ops : 0 <= grows ops.
Proof. induction ops as [|[|] ? ?]; cbn [grows]; lia. Qed.

Lemma kept_grows ops : forall flags, length flags = length ops -> Forall (eq true) flags ->
  Z.of_nat (length (kept ops flags)) = grows ops.
Proof.
  induction ops as [|o ops IH]; intros [|x flags] L F; try discriminate; [reflexivity|].
  inversion F; subst. simpl in L. specialize (IH flags ltac:(lia) H2). destruct o; cbn [kept grows]; simpl length; lia.
Qed.

Lemma kept_all ops : forall flags, length flags = length ops -> Forall (eq true) flags -> kept ops flags = all_sets ops.
Proof.
  induction ops as [|o ops IH]; intros [|x flags] L F; try discriminate; [reflexivity|].
  inversion F; subst. simpl in L. specialize (IH flags ltac:(lia) H2). destruct o; cbn [kept all_sets]; congruence.
Qed.

Lemma kept_le ops : forall flags, Z.of_nat (length (kept ops flags)) <= grows ops.
Proof.
  induction ops as [|o ops IH]; intros flags; [destruct flags; simpl; lia|].
  destruct flags as [|x flags].
  - destruct o; simpl length; pose proof (grows_nonneg ops); cbn [grows]; lia.
  - specialize (IH flags). destruct o as [sets|f]; [destruct x|]; cbn [kept grows]; simpl length; lia.
Qed.

Lemma elements_length s l : length (elements s l) = length l.
Proof. apply map_length. Qed.

(** * Soundness of a closed vector *)
Lemma ev_closed_ok b e lim st name schema s ops w v w1 flags v' w2 sl w3 :
  wf_struct s -> schema_ok st schema -> maps_ok w -> fresh_name st name w ->
  Forall (ev_op_ok st name s) ops -> grows ops * s_size s + 16 <= isize_max ->
  create_external_vector b e st name schema w = (Ret (Ok v), w1) ->
  ev_run b e lim s ops v w1 = (Ret (flags, v'), w2) ->
  ev_close b e v' w2 = (Ret (Ok sl), w3) ->
  (Forall (eq true) flags \/ forall c, bytes_at (cell_at st name) w3 = Some c -> len c <= isize_max) ->
  length flags = length ops /\ slice_ok sl /\ len (sl_mem sl) = sl_len sl + 8 /\
  array_of s (sl_bytes sl) (elements s (kept ops flags)) /\
  records s (sl_bytes sl) = elements s (kept ops flags) /\
  sl_len sl = Z.of_nat (length (kept ops flags)) * s_size s /\
  ev_len v' = Z.of_nat (length (kept ops flags)) /\
  maps_ok w3 /\
  bytes_at (cell_at st name) w3 = Some (resource_bytes (sl_bytes sl)) /\
  bytes_at (cell_at st (schema_name name)) w3 = Some schema /\
  finds st w3 name (Some (resource_bytes (sl_bytes sl))) /\ finds st w3 (schema_name name) (Some schema).
Proof.
  intros Hwf Sok MO F Ops HL C R Cl Hd. pose proof Hwf as (Hpos & _).
  destruct (create_ev_cases b e st name schema s w _ w1 F C) as (S1 & X).
  destruct X as [(v0 & E0 & I1)|(_ & Fo & _)]; [|destruct Fo as [(k & ?)|?]; discriminate].
  injection E0 as <-. assert (MO1 : maps_ok w1) by (eapply maps_ok_caches; [apply S1|auto]).
  destruct (ev_run_cases b e lim s st name schema ops Hwf Ops v w1 [] [] [] (zeros 8) _ w2 I1 MO1 ltac:(simpl; lia) R)
    as (MO2 & X).
  destruct X as [(fl & v1 & W & rest & c & E1 & Lf & I2 & C2 & _)|(E1 & _)]; [|discriminate].
  injection E1 as <- <-. simpl app in I2.
  assert (Bs := ev_inv_bytes _ _ _ _ _ _ _ _ _ _ I2). destruct Bs as (BW & Br & Lr).
  rewrite elements_length in Lr. pose proof (kept_le ops flags).
  assert (HD : len W + len rest + 16 <= isize_max) by nia.
  destruct (ev_close_cases b e st name schema s v' w2 _ W rest c _ w3 I2 MO2 Sok HD Cl) as (T3 & Cm3 & MO3 & X).
  destruct I2 as (D1 & D2 & Bc & (ms & Em & G) & Hw). rewrite elements_length in D2.
  assert (Lo := writing_loose _ _ _ _ _ _ _ Hw).
  assert (Lo2 := loose_write _ _ rest Lo).
  destruct X as [(_ & _ & [X|X] & _)|(Bd & Bsc & Fd & Fs & X)]; try discriminate.
  assert (Small : len (c ++ rest) + 8 <= isize_max).
  { destruct Hd as [Hd|Hd].
    - rewrite (C2 eq_refl Hd). rewrite !len_app. change (len (zeros 8)) with 8. lia.
    - specialize (Hd _ Bd). rewrite sealed_len in Hd by auto. auto. }
  destruct X as [(r & Er & Rok & _)|X]; [|lia]. injection Er as <-.
  destruct (Rok sl eq_refl Small) as (Eb & Es & Sl & Sm).
  rewrite Es in Bd, Fd. rewrite Eb. split; auto. split; auto. split; auto.
  split. { exists ms. split; auto. apply goods_encodes. auto. }
  split. { rewrite Em. apply goods_records; auto. }
  split. { rewrite <- (len_sl_bytes sl Sl), Eb, len_app. lia. }
  split; auto.
Qed.

(** Later reads return the same bytes. *)
Lemma found_reads b e st name schema w d : w_faults w = [] -> maps_ok w -> schema_ok st schema -> data_ok d ->
  finds st w name (Some (resource_bytes d)) -> finds st w (schema_name name) (Some schema) ->
  exists sl w', read b e st name schema w = (Ret (Ok sl), w') /\ sl_bytes sl = d.
Proof.
  intros Hf MO Sok Dok F1 F2.
  destruct (read_exact b e st name schema w _ _ Hf MO F1 F2) as (o & w' & E & _ & X).
  destruct (X (resource_bytes_ok d Dok)) as [(r & -> & V & _)|(_ & _ & H & _)].
  - unfold resource_bytes in V. apply verdict_framed in V; [|reflexivity|apply Sok|reflexivity].
    destruct r as [sl|]; [|discriminate]. injection V as V. eauto.
  - exfalso. rewrite resource_header in H by auto. destruct Dok as (_ & D). unfold isize_max in D. lia.
Qed.

(** * Progress without I/O failures *)
Lemma ev_progress b e lim st name schema s ops w :
  wf_struct s -> schema_ok st schema -> maps_ok w -> fresh_name st name w -> unblocked st name w ->
  Forall (ev_op_ok st name s) ops -> grows ops * s_size s + 16 <= isize_max ->
  quiet st (others ops) w ->
  exists v w1 flags v' w2 sl w3,
    create_external_vector b e st name schema w = (Ret (Ok v), w1) /\
    ev_run b e lim s ops v w1 = (Ret (flags, v'), w2) /\ Forall (eq true) flags /\
    ev_close b e v' w2 = (Ret (Ok sl), w3).
Proof.
  intros Hwf Sok MO F Un Ops HL Q. pose proof Hwf as (Hpos & _).
  destruct (create_external_vector b e st name schema w) as [o1 w1] eqn:C.
  destruct (create_ev_cases b e st name schema s w o1 w1 F C) as (S1 & X).
  destruct X as [(v & -> & I1)|(Hfile & _ & N & _)].
  2:{ exfalso. destruct Q as [Q|(Q & _)]; [congruence|]. apply (N Q Un). }
  assert (MO1 : maps_ok w1) by (eapply maps_ok_caches; [apply S1|auto]).
  assert (Q1 : quiet st (others ops) w1).
  { destruct Q as [Q|(Q & Q')]; [left; auto|right; split; auto]. apply S1; auto. }
  destruct (ev_run b e lim s ops v w1) as [o2 w2] eqn:R.
  destruct (ev_run_cases b e lim s st name schema ops Hwf Ops v w1 [] [] [] (zeros 8) _ w2 I1 MO1 ltac:(simpl; lia) R)
    as (MO2 & X).
  destruct X as [(flags & v' & W & rest & c & -> & Lf & I2 & C2 & Q2)|(_ & _ & NQ & _)]; [|contradiction].
  destruct (Q2 Q1) as (Fl & Ff). simpl app in I2.
  assert (Bs := ev_inv_bytes _ _ _ _ _ _ _ _ _ _ I2). destruct Bs as (BW & Br & Lr).
  rewrite elements_length in Lr. pose proof (kept_le ops flags).
  assert (HD : len W + len rest + 16 <= isize_max) by nia.
  destruct (ev_close b e v' w2) as [o3 w3] eqn:Cl.
  destruct (ev_close_cases b e st name schema s v' w2 _ W rest c _ w3 I2 MO2 Sok HD Cl) as (T3 & Cm3 & MO3 & X).
  assert (Ec := C2 eq_refl Fl).
  assert (NF : is_file st = true -> w_faults w2 <> [] -> False) by (intros A B; apply B, Ff, A).
  destruct X as [(Hfile & Hf & _)|(Bd & Bsc & Fd & Fs & X)]; [exfalso; eauto|].
  destruct X as [(r & -> & Rok & Rq)|X].
  - assert (exists sl, r = Ok sl) as (sl & ->).
    { apply Rq; [destruct (is_file st); [right; apply Ff; auto|left; auto]|]. rewrite Ec, <- app_assoc. auto. }
    exists v, w1, flags, v', w2, sl, w3. split; auto.
  - exfalso. rewrite Ec in X. rewrite !len_app in X. change (len (zeros 8)) with 8 in X. lia.
Qed.

(** * The same bytes as a Vector *)
Lemma view_bytes b data view els : data = els ++ zeros 8 -> len data <= isize_max ->
  vec_as_view b data = Ret view -> sl_bytes view = els.
Proof.
  intros -> Hm V. rewrite len_app in Hm. change (len (zeros 8)) with 8 in Hm.
  unfold vec_as_view, vec_size_in_bytes in V. destruct (flush_slice b els Hm) as (E1 & d & E2 & E3).
  rewrite E1 in V. simpl in V. rewrite E2 in V. injection V as <-. auto.
Qed.

Lemma same_as_vector b e s n vops data view bytes : wf_struct s -> 0 <= n -> n * s_size s + 8 <= isize_max ->
  vec_ops_ok s vops n ->
  obind (vec_with_len b s n) (vec_run b e s vops) = Ret data -> vec_as_view b data = Ret view ->
  array_of s bytes (fold_left (fun l o => list_step s o l) vops (repeat (zero_record s) (Z.to_nat n))) ->
  sl_bytes view = bytes.
Proof.
  intros Hwf Hn Hm Ok R V A.
  destruct (vec_with_len b s n) as [d0| | |] eqn:E0; try discriminate. simpl in R.
  destruct (vec_with_len_state b s n d0 Hwf Hn Hm E0) as (St & Lm).
  destruct (vec_run_state b e s vops Hwf d0 _ St Lm) as (d1 & E1 & (ms & Ed & G) & L1).
  { rewrite repeat_length. rewrite Z2Nat.id; auto. }
  rewrite E1 in R. injection R as ->.
  rewrite (view_bytes b data view (concat ms) Ed L1 V).
  eapply array_fun; eauto. exists ms. split; auto. apply goods_encodes. auto.
Qed.

(** * Crashes *)
(** What a reader makes of a file whose header is still zero, and of one whose
    header was being written. *)
Lemma zero_header_data d pad : firstn 8 (framed d pad) = zeros 8 -> len d < 2 ^ 64 -> d = [].
Proof.
  intros H L. assert (E : header (framed d pad) = len d) by (apply framed_header_val; auto).
  unfold header in E. rewrite H in E. destruct d; auto. rewrite len_cons in E.
  pose proof (len_nonneg d). change (le_val (zeros 8)) with 0 in E. lia.
Qed.

Lemma le_val_app p q : le_val (p ++ q) = le_val p + 256 ^ Z.of_nat (length p) * le_val q.
Proof.
  induction p as [|x p IH]; [cbn; lia|]. cbn [app le_val]. rewrite IH. simpl length.
  rewrite Nat2Z.inj_succ, Z.pow_succ_r by lia. ring.
Qed.

Lemma le_val_zeros n : le_val (zeros n) = 0.
Proof. unfold zeros. induction (Z.to_nat n) as [|k IH]; [reflexivity|]. cbn [repeat le_val]. rewrite IH. reflexivity. Qed.

Lemma le_val_nonneg l : bytes_ok l -> 0 <= le_val l.
Proof. induction 1 as [|x l Hx _ IH]; cbn [le_val]; unfold is_byte in *; lia. Qed.

Lemma partial_header D c2 p q : loose D c2 -> le_bytes 8 (len D) = p ++ q ->
  header (p ++ skipn (length p) (c2 ++ zeros 8)) = le_val p.
Proof.
  intros (Z0 & L & _) Ep. pose proof (len_nonneg D). assert (Hc8 : 8 <= len c2) by lia.
  assert (Lpq : (length p + length q = 8)%nat).
  { rewrite <- app_length, <- Ep. apply le_bytes_length. }
  unfold header. rewrite firstn_app. rewrite (firstn_all2 (n := 8) p) by lia.
  rewrite skipn_app. replace (length p - length c2)%nat with 0%nat by (unfold len in Hc8; lia). rewrite skipn_O.
  assert (Q : firstn (8 - length p) (skipn (length p) c2 ++ zeros 8) = skipn (length p) (zeros 8)).
  { rewrite <- Z0. rewrite firstn_app. rewrite skipn_length.
    replace (8 - length p - (length c2 - length p))%nat with 0%nat by (unfold len in Hc8; lia).
    rewrite firstn_O, app_nil_r. rewrite skipn_firstn_comm. auto. }
  rewrite Q. rewrite le_val_app.
  assert (Zs : le_val (skipn (length p) (zeros 8)) = 0).
  { assert (Hz := le_val_app (firstn (length p) (zeros 8)) (skipn (length p) (zeros 8))).
    rewrite firstn_skipn, le_val_zeros in Hz.
    assert (0 <= le_val (firstn (length p) (zeros 8))) by (apply le_val_nonneg, bytes_ok_firstn, bytes_ok_zeros).
    assert (0 <= le_val (skipn (length p) (zeros 8))) by (apply le_val_nonneg, bytes_ok_skipn, bytes_ok_zeros).
    assert (0 < 256 ^ Z.of_nat (length (firstn (length p) (zeros 8)))) by (apply Z.pow_pos_nonneg; lia). nia. }
  rewrite Zs. lia.
Qed.
Lemma partial_header_data D c2 p q d pad : loose D c2 -> len D < 2 ^ 64 ->
  le_bytes 8 (len D) = p ++ q -> p ++ skipn (length p) (c2 ++ zeros 8) = framed d pad -> len pad = 8 ->
  len d < 2 ^ 64 -> d = D.
Proof.
  intros (Z0 & L & E) HD Ep Ec Lp Ld. pose proof (len_nonneg D). pose proof (len_nonneg d).
  assert (Lpq : (length p + length q = 8)%nat).
  { rewrite <- app_length, <- Ep. apply le_bytes_length. }
  assert (Hh : header (p ++ skipn (length p) (c2 ++ zeros 8)) = len d) by (rewrite Ec; apply framed_header_val; auto).
  assert (Hc8 : 8 <= len c2) by lia.
  assert (Hp := partial_header D c2 p q (conj Z0 (conj L E)) Ep).
  assert (Hv : le_val (p ++ q) = len D).
  { rewrite <- Ep, le_val_bytes. apply Z.mod_small. simpl. lia. }
  rewrite le_val_app in Hv.
  assert (Bq : bytes_ok q).
  { assert (B : bytes_ok (le_bytes 8 (len D))) by apply le_bytes_ok. rewrite Ep in B. apply bytes_ok_app in B. intuition. }
  assert (Hq := le_val_nonneg q Bq).
  assert (0 < 256 ^ Z.of_nat (length p)) by (apply Z.pow_pos_nonneg; lia).
  assert (Hle : len d <= len D) by nia.
  assert (Hlen := f_equal len Ec). rewrite framed_len, len_app, Lp in Hlen.
  assert (Hsk : len (skipn (length p) (c2 ++ zeros 8)) = len c2 + 8 - Z.of_nat (length p)).
  { unfold len. rewrite skipn_length, app_length. change (length (zeros 8)) with 8%nat. unfold len in Hc8. lia. }
  rewrite Hsk in Hlen. unfold len in Hlen at 1.
  assert (Hl2 : len c2 = 8 + len D) by lia. assert (HdD : len d = len D) by lia.
  assert (X := framed_data d pad). rewrite <- Ec in X. rewrite (E Hl2) in X.
  rewrite skipn_app in X. rewrite (skipn_all2 p) in X by lia.
  rewrite skipn_add in X. replace (length p + (8 - length p))%nat with 8%nat in X by lia.
  rewrite <- app_assoc, (skipn_app_exact (zeros 8)) in X by reflexivity. rewrite HdD in X. simpl app in X.
  rewrite firstn_app_exact in X by (unfold len; lia). auto.
Qed.

Lemma unfinished_read b e id base name schema D w expected sl : data_ok D ->
  unfinished (FileStorage id base) name schema D w ->
  (forall c, w_files w (res_key (FileStorage id base) name) = Some c -> len c <= isize_max) ->
  fresh_read b e base name expected w = Ret (Ok sl) ->
  expected = schema /\ (sl_bytes sl = D \/ sl_bytes sl = [] /\ sl_len sl = 0).
Proof.
  intros Dok (Bs & c & Bc & Ok & X) Hd R.
  assert (Q := fresh_read_cases b e base name expected w). rewrite R in Q.
  cbn [cell_at bytes_at] in Bs, Bc. specialize (Hd c Bc).
  change (res_key (FileStorage 0 base)) with (res_key (FileStorage id base)) in Q. rewrite Bs, Bc in Q.
  unfold fresh_result, on_file in Q.
  destruct c as [|c0 cr] eqn:Ec; [destruct Q as (k & Q); discriminate|]. rewrite <- Ec in *. clear Ec c0 cr.
  destruct schema as [|s0 sr] eqn:Es; [destruct Q as (k & Q); discriminate|]. rewrite <- Es in *. clear Es s0 sr.
  assert (So : stored_ok c) by (split; auto).
  destruct (check_resource_cases b e name expected c schema So) as [(r & E & V & K)|(_ & _ & _ & E)];
    unfold checked in Q; rewrite E in Q; [|discriminate].
  injection Q as <-. destruct (K sl eq_refl) as (K1 & K2). simpl in V.
  inversion V as [d pad Ef Lp Uf Es| | |]; subst. split; auto.
  assert (Hdl : len (sl_bytes sl) < 2 ^ 64).
  { rewrite framed_len in Hd. pose proof (len_nonneg pad). unfold isize_max in Hd. lia. }
  destruct X as [X|(c2 & p & q & L & Ep & Ec)].
  - right. assert (Z0 := zero_header_data _ _ X Hdl). split; auto.
    rewrite <- (len_sl_bytes sl K1), Z0. reflexivity.
  - left. assert (HD : len D < 2 ^ 64) by (destruct Dok as (_ & D'); unfold isize_max in D'; lia).
    eapply partial_header_data; eauto.
Qed.

(** Before anything is finalised, a reader can at most see an empty resource. *)
Lemma unsealed_read b e id base name schema w expected sl :
  unsealed (FileStorage id base) name schema w ->
  (forall c, w_files w (res_key (FileStorage id base) name) = Some c -> len c <= isize_max) ->
  fresh_read b e base name expected w = Ret (Ok sl) ->
  expected = schema /\ sl_bytes sl = [] /\ sl_len sl = 0.
Proof.
  intros U Hd R. assert (D0 : data_ok []) by (split; [constructor|rewrite len_nil; unfold isize_max; lia]).
  destruct (unfinished_read b e id base name schema [] w expected sl D0 (unsealed_unfinished _ _ _ _ _ U) Hd R) as (E & X).
  split; auto. destruct X as [X|X]; auto. split; auto.
  assert (Q := fresh_read_cases b e base name expected w). rewrite R in Q.
  unfold fresh_result in Q. destruct (on_file _) as [c|] eqn:E1; [|destruct Q; discriminate].
  destruct (on_file (w_files w (res_key _ (schema_name name)))) as [sc|]; [|destruct Q; discriminate].
  destruct U as (c' & Bc & _ & Ok & _). cbn [cell_at bytes_at] in Bc. 
  change (res_key (FileStorage 0 base)) with (res_key (FileStorage id base)) in E1. rewrite Bc in E1.
  assert (c' = c) as -> by (destruct c'; [discriminate|injection E1; auto]).
  assert (So : stored_ok c) by (split; auto).
  destruct (check_resource_cases b e name expected c sc So) as [(r & E2 & V & K)|(_ & _ & _ & E2)];
    unfold checked in Q; rewrite E2 in Q; [|discriminate]. injection Q as <-.
  destruct (K sl eq_refl) as (K1 & _). rewrite <- (len_sl_bytes sl K1), X. reflexivity.
Qed.

(** Death while the vector is created. *)
Lemma create_progress_read b e id base name schema w w' expected sl :
  create_progress (FileStorage id base) name schema w w' ->
  disk_ok w ->
  fresh_read b e base name expected w' = Ret (Ok sl) ->
  exists pad, w_files w (res_key (FileStorage id base) name) = Some (framed (sl_bytes sl) pad) /\ len pad = 8.
Proof.
  intros P Do R. assert (Q := fresh_read_cases b e base name expected w'). rewrite R in Q.
  change (res_key (FileStorage 0 base)) with (res_key (FileStorage id base)) in Q.
  unfold fresh_result in Q. destruct (on_file _) as [c|] eqn:E1; [|destruct Q; discriminate].
  destruct (on_file (w_files w' (res_key _ (schema_name name)))) as [sc|]; [|destruct Q; discriminate].
  assert (B1 : w_files w' (res_key (FileStorage id base) name) = Some c).
  { destruct (w_files w' _) as [[|]|]; simpl in E1; congruence. }
  assert (So : stored_ok c /\ (len c <= 8 \/ w_files w (res_key (FileStorage id base) name) = Some c)).
  { unfold create_progress in P. cbn [cell_at bytes_at] in P.
    destruct P as [(Ed & _)|(p & q & Ep & Bd & _)].
    - rewrite B1 in Ed. symmetry in Ed. split; [eapply Do; eauto|auto].
    - rewrite B1 in Bd. injection Bd as <-. assert (L := f_equal len Ep). rewrite len_app in L.
      change (len (zeros 8)) with 8 in L. pose proof (len_nonneg q).
      assert (B := bytes_ok_zeros 8). rewrite Ep in B. apply bytes_ok_app in B.
      split; [split; [intuition|unfold isize_max; lia]|left; lia]. }
  destruct So as (So & Hc).
  destruct (check_resource_cases b e name expected c sc So) as [(r & E2 & V & K)|(_ & _ & _ & E2)];
    unfold checked in Q; rewrite E2 in Q; [|discriminate]. injection Q as <-.
  simpl in V. inversion V as [d pad Ef Lp Uf Es| | |]; subst.
  destruct Hc as [Hc|Hc].
  - exfalso. rewrite framed_len in Hc. pose proof (len_nonneg (sl_bytes sl)). lia.
  - exists pad. auto.
Qed.

(** * Isolation *)
Lemma ev_run_touches b e lim s st name schema (P : cell -> Prop) ops : wf_struct s -> Forall (ev_op_ok st name s) ops ->
  P (cell_at st name) -> (forall f, In f (others ops) -> forall w, maps_ok w -> touches P w (f w)) ->
  forall v w l W rest c o w', ev_inv st name schema s v w l W rest c -> maps_ok w ->
  (Z.of_nat (length l) + grows ops) * s_size s + 8 <= isize_max ->
  ev_run b e lim s ops v w = (o, w') -> touches P w w'.
Proof.
  intros Hwf Hok HP. pose proof Hwf as (Hpos & _).
  induction Hok as [|op ops Ho Hok IH]; intros HO v w l W rest c o w' Hi MO HL R.
  - cbn in R. injection R as <- <-. apply touches_refl.
  - pose proof (grows_nonneg ops). cbn [ev_run] in R. unfold mbind at 1 in R. destruct op as [sets|f].
    + cbn [grows] in HL. cbn [others] in HO.
      destruct (ev_step b e lim s (EGrow sets) v w) as [o1 w1] eqn:E1.
      destruct (ev_step_cases b e lim s sets st name schema v w l W rest c o1 w1 Hwf Ho Hi ltac:(nia) E1) as (S1 & X).
      assert (T1 : touches P w w1).
      { eapply touches_mono; [|apply S1]. intros k <-. auto. }
      assert (MO1 : maps_ok w1) by (eapply maps_ok_caches; [apply S1|auto]).
      assert (Next : forall r v1 l1 W1 rest1 c1, o1 = Ret (r, v1) -> ev_inv st name schema s v1 w1 l1 W1 rest1 c1 ->
        (Z.of_nat (length l1) + grows ops) * s_size s + 8 <= isize_max -> touches P w w').
      { intros r v1 l1 W1 rest1 c1 -> I1 L1. unfold mbind in R. cbn [snd fst] in R.
        destruct (ev_run b e lim s ops v1 w1) as [o2 w2] eqn:E2.
        assert (w' = w2) by (destruct o2 as [[? ?]| | |]; cbn in R; unfold mret in R; injection R as _ <-; auto). subst w2.
        eapply touches_trans; [exact T1|]. eapply IH; eauto. }
      destruct X as [(v1 & W1 & rest1 & c1 & E & I1 & _)|(_ & _ & [(v1 & c1 & E & I1)|(-> & _)])].
      * eapply Next; eauto. rewrite app_length. simpl length. nia.
      * eapply Next; eauto. nia.
      * injection R as <- <-. auto.
    + cbn [grows] in HL. cbn [others] in HO. destruct (Ho w MO) as (I & M). cbn [ev_step] in R. cbn beta iota in R.
      assert (I1 : ev_inv st name schema s v (f w) l W rest c).
      { eapply ev_inv_intact; eauto; apply I; simpl; auto. }
      unfold mbind in R. cbn [snd fst] in R.
      destruct (ev_run b e lim s ops v (f w)) as [o2 w2] eqn:E2.
      assert (w' = w2) by (destruct o2 as [[? ?]| | |]; cbn in R; unfold mret in R; injection R as _ <-; auto). subst w2.
      eapply touches_trans; [apply HO; simpl; auto|]. eapply IH; eauto. intros g Hg. apply HO. simpl. auto.
Qed.

Lemma ev_session_touches b e lim s st name schema (P : cell -> Prop) ops w o w' : wf_struct s ->
  schema_ok st schema -> maps_ok w -> fresh_name st name w ->
  Forall (ev_op_ok st name s) ops -> grows ops * s_size s + 16 <= isize_max ->
  (forall c, cells_of st name c -> P c) -> (forall f, In f (others ops) -> forall w, maps_ok w -> touches P w (f w)) ->
  ev_session b e lim s st name schema ops w = (o, w') -> touches P w w'.
Proof.
  intros Hwf Sok MO F Ops HL HP HO R. pose proof Hwf as (Hpos & _). unfold ev_session, mtry, mbind in R.
  destruct (create_external_vector b e st name schema w) as [o1 w1] eqn:C.
  destruct (create_ev_cases b e st name schema s w o1 w1 F C) as (S1 & X).
  assert (T1 : touches P w w1) by (eapply touches_mono; [exact HP|apply S1]).
  assert (MO1 : maps_ok w1) by (eapply maps_ok_caches; [apply S1|auto]).
  destruct X as [(v & -> & I1)|(Hfile & Fo & _)].
  2:{ destruct Fo as [(k & ->)| ->]; cbn in R; injection R as <- <-; auto. }
  destruct (ev_run b e lim s ops v w1) as [o2 w2] eqn:E2.
  assert (T2 : touches P w1 w2).
  { eapply ev_run_touches; eauto. { apply HP. left. auto. } simpl. lia. }
  destruct (ev_run_cases b e lim s st name schema ops Hwf Ops v w1 [] [] [] (zeros 8) _ w2 I1 MO1 ltac:(simpl; lia) E2)
    as (MO2 & X).
  destruct X as [(flags & v' & W & rest & c & -> & Lf & I2 & C2 & Q2)|(-> & _)].
  2:{ injection R as <- <-. eapply touches_trans; eauto. }
  simpl app in I2. cbn [snd fst] in R.
  assert (Bs := ev_inv_bytes _ _ _ _ _ _ _ _ _ _ I2). destruct Bs as (BW & Br & Lr).
  rewrite elements_length in Lr. pose proof (kept_le ops flags).
  assert (HD : len W + len rest + 16 <= isize_max) by nia.
  destruct (ev_close b e v' w2) as [o3 w3] eqn:Cl.
  destruct (ev_close_cases b e st name schema s v' w2 _ W rest c _ w3 I2 MO2 Sok HD Cl) as (T3 & _).
  assert (w' = w3) by (destruct o3 as [?| | |]; cbn in R; unfold mret in R; injection R as _ <-; auto). subst w3.
  eapply touches_trans; [exact T1|]. eapply touches_trans; [exact T2|]. eapply touches_mono; [exact HP|exact T3].
Qed.

(** * close never fails silently *)
Lemma ev_close_outcome b e lim st name schema s ops w v w1 flags v' w2 o w3 :
  wf_struct s -> schema_ok st schema -> maps_ok w -> fresh_name st name w ->
  Forall (ev_op_ok st name s) ops -> grows ops * s_size s + 16 <= isize_max ->
  create_external_vector b e st name schema w = (Ret (Ok v), w1) ->
  ev_run b e lim s ops v w1 = (Ret (flags, v'), w2) ->
  ev_close b e v' w2 = (o, w3) ->
  (forall c, bytes_at (cell_at st name) w3 = Some c -> len c <= isize_max) ->
  (exists r, o = Ret r) \/ (is_file st = true /\ w_faults w2 <> [] /\ (o = Panic \/ o = Crash)).
Proof.
  intros Hwf Sok MO F Ops HL C R Cl Hd. pose proof Hwf as (Hpos & _).
  destruct (create_ev_cases b e st name schema s w _ w1 F C) as (S1 & X).
  destruct X as [(v0 & E0 & I1)|(_ & Fo & _)]; [|destruct Fo as [(k & ?)|?]; discriminate].
  injection E0 as <-. assert (MO1 : maps_ok w1) by (eapply maps_ok_caches; [apply S1|auto]).
  destruct (ev_run_cases b e lim s st name schema ops Hwf Ops v w1 [] [] [] (zeros 8) _ w2 I1 MO1 ltac:(simpl; lia) R)
    as (MO2 & X).
  destruct X as [(fl & v1 & W & rest & c & E1 & Lf & I2 & C2 & _)|(E1 & _)]; [|discriminate].
  injection E1 as <- <-. simpl app in I2.
  assert (Bs := ev_inv_bytes _ _ _ _ _ _ _ _ _ _ I2). destruct Bs as (BW & Br & Lr).
  rewrite elements_length in Lr. pose proof (kept_le ops flags).
  assert (HD : len W + len rest + 16 <= isize_max) by nia.
  destruct (ev_close_cases b e st name schema s v' w2 _ W rest c _ w3 I2 MO2 Sok HD Cl) as (T3 & Cm3 & MO3 & X).
  destruct I2 as (_ & _ & _ & _ & Hw). assert (Lo2 := loose_write _ _ rest (writing_loose _ _ _ _ _ _ _ Hw)).
  destruct X as [(Hfile & Hf & [X|X] & _)|(Bd & _ & _ & _ & [(r & -> & _)|X])]; eauto 6.
  exfalso. specialize (Hd _ Bd). rewrite sealed_len in Hd by auto. lia.
Qed.

(** * Crashes at any point of a session *)
Lemma ev_run_open b e lim st name schema s ops w v w1 o w2 :
  wf_struct s -> maps_ok w -> fresh_name st name w ->
  Forall (ev_op_ok st name s) ops -> grows ops * s_size s + 16 <= isize_max ->
  create_external_vector b e st name schema w = (Ret (Ok v), w1) ->
  ev_run b e lim s ops v w1 = (o, w2) ->
  unsealed st name schema w2 /\
  ((exists flags v', o = Ret (flags, v') /\ is_open (ev_handle v') = true) \/ (o = Crash /\ is_file st = true)).
Proof.
  intros Hwf MO F Ops HL C R.
  destruct (create_ev_cases b e st name schema s w _ w1 F C) as (S1 & X).
  destruct X as [(v0 & E0 & I1)|(_ & Fo & _)]; [|destruct Fo as [(k & ?)|?]; discriminate].
  injection E0 as <-. assert (MO1 : maps_ok w1) by (eapply maps_ok_caches; [apply S1|auto]).
  destruct (ev_run_cases b e lim s st name schema ops Hwf Ops v w1 [] [] [] (zeros 8) _ w2 I1 MO1 ltac:(simpl; lia) R)
    as (MO2 & X).
  destruct X as [(fl & v1 & W & rest & c & -> & Lf & I2 & C2 & _)|(-> & Hfile & _ & U)]; [|auto].
  destruct I2 as (_ & _ & Bc & _ & Hw). split; [eapply writing_unsealed; eauto|]. left. exists fl, v1. split; auto.
  eapply writing_open; eauto.
Qed.

Lemma ev_crash_close b e lim id base name schema s ops w v w1 flags v' w2 w3 :
  let st := FileStorage id base in
  wf_struct s -> schema_ok st schema -> maps_ok w -> fresh_name st name w ->
  Forall (ev_op_ok st name s) ops -> grows ops * s_size s + 16 <= isize_max ->
  create_external_vector b e st name schema w = (Ret (Ok v), w1) ->
  ev_run b e lim s ops v w1 = (Ret (flags, v'), w2) ->
  ev_close b e v' w2 = (Crash, w3) ->
  (forall c, w_files w3 (res_key st name) = Some c -> len c <= isize_max) ->
  forall b' e' expected sl, fresh_read b' e' base name expected w3 = Ret (Ok sl) ->
  expected = schema /\
  (array_of s (sl_bytes sl) (elements s (kept ops flags)) /\ records s (sl_bytes sl) = elements s (kept ops flags) \/
   sl_bytes sl = [] /\ sl_len sl = 0).
Proof.
  intros st Hwf Sok MO F Ops HL C R Cl Hd b' e' expected sl Rd. pose proof Hwf as (Hpos & _).
  destruct (create_ev_cases b e st name schema s w _ w1 F C) as (S1 & X).
  destruct X as [(v0 & E0 & I1)|(_ & Fo & _)]; [|destruct Fo as [(k & ?)|?]; discriminate].
  injection E0 as <-. assert (MO1 : maps_ok w1) by (eapply maps_ok_caches; [apply S1|auto]).
  destruct (ev_run_cases b e lim s st name schema ops Hwf Ops v w1 [] [] [] (zeros 8) _ w2 I1 MO1 ltac:(simpl; lia) R)
    as (MO2 & X).
  destruct X as [(fl & v1 & W & rest & c & E1 & Lf & I2 & C2 & _)|(E1 & _)]; [|discriminate].
  injection E1 as <- <-. simpl app in I2.
  assert (Bs := ev_inv_bytes _ _ _ _ _ _ _ _ _ _ I2). destruct Bs as (BW & Br & Lr).
  rewrite elements_length in Lr. pose proof (kept_le ops flags).
  assert (HD : len W + len rest + 16 <= isize_max) by nia.
  destruct (ev_close_cases b e st name schema s v' w2 _ W rest c _ w3 I2 MO2 Sok HD Cl) as (T3 & Cm3 & MO3 & X).
  destruct I2 as (_ & _ & Bc & (ms & Em & G) & Hw).
  assert (Lo2 := loose_write _ _ rest (writing_loose _ _ _ _ _ _ _ Hw)).
  assert (Dok : data_ok (W ++ rest)) by (split; [apply bytes_ok_app; auto|rewrite len_app; lia]).
  destruct X as [(Hfile & Hf & [X|_] & U)|(Bd & _ & _ & _ & [(r & X & _)|X])]; try discriminate.
  - destruct (unfinished_read b' e' id base name schema _ w3 expected sl Dok U Hd Rd) as (E & Y). split; auto.
    destruct Y as [Y|Y]; auto. left. rewrite Y, Em. split; [|apply goods_records; auto].
    exists ms. split; auto. apply goods_encodes. auto.
  - exfalso. specialize (Hd _ Bd). rewrite sealed_len in Hd by auto. lia.
Qed.

Lemma flush_open b v w r v' w' : is_open (ev_handle v) = true ->
  ev_flush b v w = (Ret (r, v'), w') -> is_open (ev_handle v') = true.
Proof.
  intros Op R. unfold ev_flush, mbind, lift in R.
  destruct (usub b (len (ev_data v)) PADDING_SIZE) as [n| | |]; try discriminate.
  destruct (slice_range (whole (ev_data v)) 0 n) as [d| | |]; try discriminate.
  unfold handle_write in R. unfold is_open in Op. destruct (h_stream (ev_handle v)) as [s|]; [|discriminate].
  unfold mbind in R. destruct (write_all s (sl_bytes d) w) as [[[[u|k] s']| | |] w1]; try discriminate.
  - unfold lift in R. destruct (uadd _ _ _); try discriminate. unfold mret in R. injection R as <- <- <-. reflexivity.
  - unfold mret in R. injection R as <- <- <-. reflexivity.
Qed.

Lemma handle_close_closed b e h w r h' w' : handle_close b e h w = (Ret (Ok r, h'), w') -> is_open h' = false.
Proof.
  unfold handle_close. destruct (h_stream h) as [s|]; [|unfold mret; discriminate].
  unfold mbind. intros R.
  destruct (write_padding s w) as [[[[u|k] s1]| | |] w1]; try discriminate.
  destruct (seek_start s1 w1) as [[[[u2|k] s2]| | |] w2]; try discriminate.
  destruct (write_size b e (h_size h) s2 w2) as [[[[u3|k] s3]| | |] w3]; try discriminate.
  destruct (read b e (h_storage h) (h_name h) (h_schema h) w3) as [[d| | |] w4]; try discriminate.
  unfold mret in R. inversion R; subst; reflexivity.
Qed.

Lemma read_resource_calm st n w : w_faults w = [] -> w_faults (snd (read_resource st n w)) = [].
Proof.
  intros H. destruct st as [id base|id base]; cbn [read_resource].
  - destruct (w_resources w id _); auto. destruct (w_streams w id _) as [[c p]|]; auto.
  - unfold mbind, path_exists, syscall, mbind, next_fault. rewrite H. cbn.
    destruct (on_disk _ w); auto. unfold mmap_read. destruct (w_maps w id _); auto.
    unfold syscall, next_fault. rewrite H. destruct (w_files w _) as [c|]; auto. destruct (len c =? 0); auto.
Qed.

Lemma read_calm b e st n expected w : w_faults w = [] -> w_faults (snd (read b e st n expected w)) = [].
Proof.
  intros H. unfold read, mtry, mbind. assert (H1 := read_resource_calm st n w H).
  destruct (read_resource st n w) as [[[d|k]| | |] w1]; auto. cbn [snd] in H1.
  assert (H2 := read_resource_calm st (schema_name n) w1 H1).
  destruct (read_resource st (schema_name n) w1) as [[[d2|k]| | |] w2]; auto.
Qed.

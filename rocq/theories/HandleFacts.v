(** Facts about ResourceHandle: what an open handle has written, and what
    closing it leaves behind. *)
From Verif Require Import Base BaseFacts Codec CodecSpec CodecFacts Storage PathFacts StorageSpec.
From Verif Require Import StorageFacts StorageMore StorageUse Structs Views Writers.
Local Open Scope list_scope.
Local Open Scope Z_scope.
Local Arguments firstn : simpl never.
Local Arguments skipn : simpl never.

(** Nothing cached by readers of [st] under the name. *)
Definition uncached (st : storage) (name : string) (w : world) : Prop :=
  match st with
  | MemStorage id _ => w_resources w id (res_key st name) = None
  | FileStorage id _ => w_maps w id (res_path st name) = None
  end.

Lemma unused_uncached st n w : unused st n w -> uncached st n w.
Proof. destruct st; simpl; [intros []|]; auto. Qed.

Lemma uncached_caches st n w w' : same_caches w w' -> uncached st n w -> uncached st n w'.
Proof. intros (R & M). destruct st; simpl; rewrite ?R, ?M; auto. Qed.

Lemma uncached_touches P st n w w' : touches P w w' -> ~ P (cell_at st n) -> uncached st n w -> uncached st n w'.
Proof.
  intros (A1 & A2 & A3 & _) N. destruct st as [id base|id base]; simpl in *.
  - destruct (A1 id _ N) as (_ & ->). auto.
  - rewrite A3; auto.
Qed.

Lemma finds_uncached st w n c : uncached st n w -> bytes_at (cell_at st n) w = Some c ->
  (is_file st = true -> c <> []) -> finds st w n (Some c).
Proof.
  destruct st as [id base|id base]; simpl; intros U B H.
  - rewrite U, B. auto.
  - rewrite U, B. destruct c; auto. exfalso. apply H; auto.
Qed.

(** The stream content [c] of a handle through which [W] was written
    successfully: some more bytes if writes failed half way. *)
Definition loose (W c : list Z) : Prop :=
  firstn 8 c = zeros 8 /\ 8 + len W <= len c /\ (len c = 8 + len W -> c = zeros 8 ++ W).

Lemma loose_start : loose [] (zeros 8).
Proof. repeat split. intros H. discriminate. Qed.

Lemma firstn8_app c d : 8 <= len c -> firstn 8 (c ++ d) = firstn 8 c.
Proof.
  intros H. rewrite firstn_app. unfold len in H. replace (8 - length c)%nat with 0%nat by lia.
  rewrite firstn_O, app_nil_r. auto.
Qed.

Lemma loose_write W c d : loose W c -> loose (W ++ d) (c ++ d).
Proof.
  intros (Z0 & L & E). pose proof (len_nonneg W). split; [rewrite firstn8_app; auto; lia|].
  rewrite !len_app. split; [lia|]. intros H1. rewrite E by lia. rewrite app_assoc. auto.
Qed.

Lemma loose_more W c d : loose W c -> loose W (c ++ d).
Proof.
  intros (Z0 & L & E). pose proof (len_nonneg W). pose proof (len_nonneg d).
  split; [rewrite firstn8_app; auto; lia|]. rewrite len_app. split; [lia|].
  intros H1. assert (len d = 0) by lia. destruct d; [rewrite app_nil_r; apply E; lia|].
  rewrite len_cons in *. pose proof (len_nonneg d). lia.
Qed.

(** An open handle for the resource [name] of [st], through which [W] was
    written; [c] is what its stream holds. *)
Definition writing (st : storage) (name : string) (schema : list Z) (h : handle) (w : world) (W c : list Z) : Prop :=
  exists s, h_stream h = Some s /\ h_storage h = st /\ h_name h = name /\ h_schema h = schema /\
    h_size h = len W /\ cell_of s = cell_at st name /\ at_pos s w c (len c) /\ loose W c /\
    bytes_at (cell_at st (schema_name name)) w = Some schema /\
    uncached st name w /\ uncached st (schema_name name) w.

Lemma writing_open st name schema h w W c : writing st name schema h w W c -> is_open h = true.
Proof. intros (s & E & _). unfold is_open. rewrite E. auto. Qed.

Lemma writing_bytes st name schema h w W c : writing st name schema h w W c ->
  bytes_at (cell_at st name) w = Some c.
Proof. intros (s & _ & _ & _ & _ & _ & C & A & _). rewrite <- C. eapply at_pos_bytes; eauto. Qed.

Lemma writing_touches P st name schema h w w' W c : touches P w w' ->
  ~ P (cell_at st name) -> ~ P (cell_at st (schema_name name)) ->
  writing st name schema h w W c -> writing st name schema h w' W c.
Proof.
  intros T N1 N2 (s & E & H1 & H2 & H3 & H4 & C & A & L & B & U1 & U2). exists s.
  refine (conj E (conj H1 (conj H2 (conj H3 (conj H4 (conj C (conj _ (conj L (conj _ (conj _ _)))))))))).
  - eapply at_pos_touches; eauto. congruence.
  - erewrite bytes_at_touches; eauto.
  - eapply uncached_touches; eauto.
  - eapply uncached_touches; eauto.
Qed.

(** * Creating *)
(** How far [create_handle] came when it failed. *)
Definition create_progress (st : storage) (name : string) (schema : list Z) (w w' : world) : Prop :=
  let kd := cell_at st name in let ks := cell_at st (schema_name name) in
  (bytes_at kd w' = bytes_at kd w /\
     (bytes_at ks w' = bytes_at ks w \/ exists p q, schema = p ++ q /\ bytes_at ks w' = Some p)) \/
  (exists p q, zeros 8 = p ++ q /\ bytes_at kd w' = Some p /\ bytes_at ks w' = Some schema).

Lemma can_fail_file s st name w : cell_of s = cell_at st name -> can_fail s w -> is_file st = true /\ w_faults w <> [].
Proof. destruct s, st; simpl; try discriminate; try contradiction; auto. Qed.

Lemma start_file st name w : is_file st = true -> start st name w = [].
Proof. destruct st; simpl; congruence. Qed.

Lemma create_handle_cases b e st name schema w o w' :
  at_end st name w -> start st name w = [] ->
  at_end st (schema_name name) w -> start st (schema_name name) w = [] ->
  uncached st name w -> uncached st (schema_name name) w ->
  create_handle b e st name schema w = (o, w') ->
  step (cells_of st name) w w' /\
  ((exists h, o = Ret (Ok h) /\ writing st name schema h w' [] (zeros 8)) \/
   (is_file st = true /\ failed o /\ (w_faults w = [] -> ~ unblocked st name w) /\
    create_progress st name schema w w')).
Proof.
  intros Ae St0 Aes Ss U1 U2 R. unfold create_handle, mtry, mbind in R.
  set (kd := cell_at st name). set (ks := cell_at st (schema_name name)).
  assert (Hk : ks <> kd) by apply cell_schema.
  assert (P1 : forall c, ks = c -> cells_of st name c) by (intros c <-; right; auto).
  assert (P2 : forall c, kd = c -> cells_of st name c) by (intros c <-; left; auto).
  destruct (create_output_stream st (schema_name name) w) as [o1 w1] eqn:E1.
  apply create_output_stream_cases in E1.
  destruct E1 as [(s1 & -> & C1 & S1 & A1 & Rd1)|(Hfile & S1 & F1 & Fo & N1)].
  2:{ assert (w' = w1 /\ failed o) as [-> Fo2].
      { destruct Fo as [(k & ->)| ->]; injection R as <- <-; split; unfold failed; eauto. }
      split; [eapply step_mono; [|exact S1]; intros c []|]. right. split; auto. split; auto. split.
      - intros Hf (_ & Rs). auto.
      - left. assert (T1 : touches nothing w w1) by apply S1.
        assert (G : forall c, bytes_at c w1 = bytes_at c w) by (intros c; eapply bytes_at_touches; [exact T1|auto]).
        rewrite !G. auto. }
  specialize (A1 Aes). rewrite Ss in A1. fold ks in C1, S1.
  destruct (write_schema schema s1 w1) as [o2 w2] eqn:E2.
  apply (write_schema_cases schema s1 w1 []) in E2; [|exact A1]. rewrite C1 in E2. destruct E2 as (S2 & X2).
  assert (S12 : step (eq ks) w w2) by (eapply step_trans; [exact S1|apply S2]).
  assert (Ud : bytes_at kd w2 = bytes_at kd w) by (eapply bytes_at_touches; [apply S12|congruence]).
  destruct X2 as [(-> & B2)|(Cf & Fo & p & q & Ep & Bp)].
  2:{ destruct (can_fail_file s1 st (schema_name name) w1 C1 Cf) as (Hfile & Hf). rewrite C1 in Bp. simpl in Bp.
      assert (w' = w2 /\ failed o) as [-> Fo2].
      { destruct Fo as [(k & ->)| ->]; injection R as <- <-; split; unfold failed; eauto. }
      split; [eapply step_mono; [exact P1|exact S12]|]. right. split; auto. split; auto. split.
      - intros H. exfalso. apply Hf. apply S1. auto.
      - left. fold kd ks. split; auto. right. exists p, q. auto. }
  simpl in B2.
  destruct (create_output_stream st name w2) as [o3 w3] eqn:E3.
  apply create_output_stream_cases in E3.
  assert (T12 : touches (eq ks) w w2) by apply S12.
  assert (Aed : at_end st name w2) by (eapply at_end_touches; [exact T12|exact Hk|auto]).
  assert (St2 : start st name w2 = []).
  { rewrite <- St0. destruct st as [id base|id base]; auto. simpl.
    destruct T12 as (T12 & _). destruct (T12 id (res_key (MemStorage id base) name) Hk) as (-> & _). auto. }
  destruct E3 as [(s3 & -> & C3 & S3 & A3 & Rd3)|(Hfile & S3 & F3 & Fo & N3)].
  2:{ assert (w' = w3 /\ failed o) as [-> Fo2].
      { destruct Fo as [(k & ->)| ->]; injection R as <- <-; split; unfold failed; eauto. }
      assert (T3 : touches nothing w2 w3) by apply S3.
      assert (G : forall c, bytes_at c w3 = bytes_at c w2) by (intros c; eapply bytes_at_touches; [exact T3|auto]).
      split; [eapply step_trans; [eapply step_mono; [exact P1|exact S12]|eapply step_mono; [|exact S3]; intros c []]|].
      right. split; auto. split; auto. split.
      - intros Hf (Rn & Rs).
        assert (Hf1 : w_faults w1 = []) by (apply S1; auto).
        apply N3; [apply S2; auto|].
        destruct (Rd1 Hf name Rn) as (Rn1 & D1). eapply ready_wstep; [exact S2|exact D1|exact Rn1].
      - left. fold kd ks. rewrite !G. split; auto. right. exists schema, []. rewrite app_nil_r. auto. }
  specialize (A3 Aed). rewrite St2 in A3. fold kd in C3, S3.
  unfold handle_try_new in R.
  apply (stry_puts _ _ s3 w3 [] _ o w' (write_size_puts b e 0) A3) in R. rewrite C3 in R.
  assert (Z8 : le_bytes 8 0 = zeros 8) by reflexivity. rewrite Z8 in R. simpl app in R.
  assert (S123 : step (cells_of st name) w w3).
  { eapply step_trans; [eapply step_mono; [exact P1|exact S12]|eapply step_mono; [exact P2|exact S3]]. }
  assert (Bs3 : bytes_at ks w3 = Some schema).
  { erewrite bytes_at_touches; [exact B2|apply S3|]. congruence. }
  destruct R as [(s4 & w4 & S4 & C4 & A4 & R)|(S4 & Cf & Fo & p & q & Ep & Bp)].
  - injection R as <- <-.
    assert (SS : step (cells_of st name) w w4).
    { eapply step_trans; [exact S123|]. eapply step_mono; [exact P2|]. apply S4. }
    split; auto. left. eexists. split; [reflexivity|].
    exists s4. simpl. refine (conj eq_refl (conj eq_refl (conj eq_refl (conj eq_refl (conj eq_refl (conj _ (conj A4 (conj loose_start (conj _ (conj _ _)))))))))).
    + exact C4.
    + erewrite bytes_at_touches; [exact Bs3|apply S4|]. exact (not_eq_sym Hk).
    + eapply uncached_caches; [apply SS|auto].
    + eapply uncached_caches; [apply SS|auto].
  - destruct (can_fail_file s3 st name w3 C3 Cf) as (Hfile & Hf). rewrite C3 in Bp. simpl in Bp.
    split; [eapply step_trans; [exact S123|]; eapply step_mono; [exact P2|]; apply S4|].
    right. split; auto. split; [exact Fo|]. split.
    + intros H. exfalso. apply Hf. apply S3, S12. auto.
    + right. exists p, q. split; auto. split; auto. fold ks. erewrite bytes_at_touches; [exact Bs3|apply S4|]. exact (not_eq_sym Hk).
Qed.

(** * Writing *)
Definition put_stream (h : handle) (s : stream) (n : Z) : handle :=
  mkHandle (Some s) n (h_storage h) (h_name h) (h_schema h).

Lemma writing_put st name schema h w w' W c s W' c' :
  writing st name schema h w W c -> step (eq (cell_at st name)) w w' ->
  cell_of s = cell_at st name -> at_pos s w' c' (len c') -> loose W' c' ->
  writing st name schema (put_stream h s (len W')) w' W' c'.
Proof.
  intros (s0 & E & H1 & H2 & H3 & H4 & C & A & L & B & U1 & U2) S C' A' L'. exists s. simpl.
  refine (conj eq_refl (conj H1 (conj H2 (conj H3 (conj eq_refl (conj C' (conj A' (conj L' (conj _ (conj _ _)))))))))).
  - erewrite bytes_at_touches; [exact B|apply S|]. intros HH. apply (cell_schema st name). symmetry. exact HH.
  - eapply uncached_caches; [apply S|auto].
  - eapply uncached_caches; [apply S|auto].
Qed.

Lemma handle_write_cases b st name schema h w W c d o w' :
  writing st name schema h w W c -> len W + len d < 2 ^ 64 ->
  handle_write b h d w = (o, w') ->
  step (eq (cell_at st name)) w w' /\
  ((exists h', o = Ret (Ok tt, h') /\ writing st name schema h' w' (W ++ d) (c ++ d)) \/
   (is_file st = true /\ w_faults w <> [] /\ exists d1 d2, d = d1 ++ d2 /\
     ((exists k h', o = Ret (Er k, h') /\ writing st name schema h' w' W (c ++ d1)) \/
      (o = Crash /\ bytes_at (cell_at st name) w' = Some (c ++ d1))))).
Proof.
  intros Hw HL R. assert (Hw' := Hw).
  destruct Hw' as (s & E & H1 & H2 & H3 & H4 & C & A & L & B & U1 & U2).
  unfold handle_write in R. rewrite E in R. unfold mbind in R.
  destruct (write_all s d w) as [o1 w1] eqn:E1.
  destruct (puts_end _ d s w c o1 w1 (write_all_puts d) A E1) as (S1 & X). rewrite C in S1.
  pose proof (len_nonneg W). pose proof (len_nonneg d).
  destruct X as [(s' & -> & C' & A')|(F & d1 & d2 & Ed & X)].
  - unfold lift, uadd, wrap_or_panic, usize_limit in R. rewrite H4 in R.
    destruct (Z.leb_spec 0 (len W + len d)); [|lia].
    destruct (Z.ltb_spec (len W + len d) (2 ^ 64)); [|lia]. simpl in R. injection R as <- <-.
    split; [apply S1|]. left. eexists. split; [reflexivity|].
    rewrite <- len_app. eapply (writing_put st name schema h w w1 W c s'); eauto; [apply S1|congruence|].
    apply loose_write; auto.
  - destruct (can_fail_file s st name w C F) as (Hfile & Hf).
    destruct X as [(k & s' & -> & C' & A')|(-> & Bp)].
    + injection R as <- <-. split; [apply S1|]. right. split; auto. split; auto. exists d1, d2. split; auto.
      left. exists k. eexists. split; [reflexivity|]. rewrite H4.
      eapply (writing_put st name schema h w w1 W c s'); eauto; [apply S1|congruence|]. apply loose_more; auto.
    + injection R as <- <-. split; [apply S1|]. right. split; auto. split; auto. exists d1, d2. split; auto.
      right. split; auto. congruence.
Qed.

(** * Closing *)
(** The bytes after the header was written. *)
Definition sealed (W c : list Z) : list Z := le_bytes 8 (len W) ++ skipn 8 c ++ zeros 8.

Lemma sealed_exact W c : loose W c -> len c = 8 + len W -> sealed W c = resource_bytes W.
Proof.
  intros (_ & _ & E) H. rewrite E by auto. unfold sealed, resource_bytes, framed.
  rewrite skipn_app_exact; auto.
Qed.

Lemma skipn8_len c : 8 <= len c -> len (skipn 8 c) = len c - 8.
Proof. intros H. change 8%nat with (Z.to_nat 8). rewrite len_skipn; lia. Qed.

Lemma sealed_len W c : loose W c -> len (sealed W c) = len c + 8.
Proof.
  intros (_ & L & _). pose proof (len_nonneg W).
  unfold sealed. rewrite !len_app, len_le_bytes, len_zeros, skipn8_len by lia. lia.
Qed.

Lemma sealed_header W c : len W < 2 ^ 64 -> header (sealed W c) = len W.
Proof.
  intros H. unfold header, sealed. rewrite firstn_app_exact by reflexivity. rewrite le_val_bytes.
  pose proof (len_nonneg W). apply Z.mod_small. simpl. lia.
Qed.

Lemma sealed_framed W c d pad : loose W c -> len W < 2 ^ 64 -> stored_ok (sealed W c) ->
  sealed W c = framed d pad -> len pad = 8 -> d = W /\ sealed W c = resource_bytes W.
Proof.
  intros L HW (_ & S) E P. assert (H := f_equal header E). assert (H' := f_equal len E).
  rewrite framed_len, P in H'. rewrite sealed_header in H by auto.
  pose proof (len_nonneg d). pose proof (len_nonneg W).
  rewrite framed_header_val in H by (rewrite E, framed_len in S; unfold isize_max in S; lia).
  rewrite sealed_len in H' by auto. assert (HL : len c = 8 + len W) by lia.
  assert (X := sealed_exact W c L HL). split; auto. rewrite E in X.
  unfold resource_bytes in X. assert (Q := framed_data d pad). rewrite X in Q.
  rewrite <- H in Q. rewrite framed_data in Q. auto.
Qed.

Lemma bytes_ok_sealed W c : bytes_ok c -> bytes_ok (sealed W c).
Proof.
  intros. unfold sealed. apply Forall_app. split; [apply le_bytes_ok|].
  apply Forall_app. split; [apply bytes_ok_skipn; auto|apply bytes_ok_zeros].
Qed.

Lemma seek_start_cases s w c p o w' : at_pos s w c p -> seek_start s w = (o, w') ->
  wstep (eq (cell_of s)) w w' /\ bytes_at (cell_of s) w' = Some c /\
  ((exists s', o = Ret (Ok tt, s') /\ cell_of s' = cell_of s /\ at_pos s' w' c 0) \/
   (can_fail s w /\ ((exists k s', o = Ret (Er k, s') /\ cell_of s' = cell_of s) \/ o = Crash))).
Proof.
  intros A R. destruct (seek_start_wstep _ _ _ _ R) as (S & _). split; auto.
  assert (B := at_pos_bytes _ _ _ _ A).
  destruct s as [id k|k q]; simpl in *.
  - rewrite A in R. injection R as <- <-. simpl. rewrite nupd_same, kupd_same. split; auto.
    left. eexists. split; [reflexivity|]. split; auto. simpl. rewrite nupd_same, kupd_same. auto.
  - unfold mbind in R.
    destruct (syscall_eq (mret (Ok tt)) w) as [(w1 & E1 & E)|(Hf & o1 & E & X)]; rewrite E in R.
    + subst w1. unfold mret in R. injection R as <- <-. split; auto. left. eexists. split; [reflexivity|].
      split; auto. simpl. destruct A as (A & <-). auto.
    + destruct X as [(kd & ->)| ->]; injection R as <- <-; (split; [exact B|right; split; [exact Hf|eauto]]).
Qed.

(** The disk content when the process dies while a handle is being closed. *)
Definition closing_content (W c c1 : list Z) : Prop :=
  (exists p q, zeros 8 = p ++ q /\ c1 = c ++ p) \/
  (exists p q, le_bytes 8 (len W) = p ++ q /\ c1 = p ++ skipn (length p) (c ++ zeros 8)).

Lemma handle_close_cases b e st name schema h w W c o w' :
  writing st name schema h w W c -> maps_ok w -> schema_ok st schema -> data_ok W -> bytes_ok c ->
  handle_close b e h w = (o, w') ->
  touches (cells_of st name) w w' /\ calm w w' /\ maps_ok w' /\
  (* not finished: an I/O failure, the handle is still open *)
  ((is_file st = true /\ w_faults w <> [] /\
     ((exists k h', o = Ret (Er (EIo k name), h') /\ is_open h' = true) \/ o = Crash) /\
     (exists c1, bytes_at (cell_at st name) w' = Some c1 /\ closing_content W c c1) /\
     bytes_at (cell_at st (schema_name name)) w' = Some schema) \/
  (* finished: the result is that of reading *)
   (bytes_at (cell_at st name) w' = Some (sealed W c) /\
    bytes_at (cell_at st (schema_name name)) w' = Some schema /\
    finds st w' name (Some (sealed W c)) /\ finds st w' (schema_name name) (Some schema) /\
    ((o = Crash /\ is_file st = true /\ w_faults w <> []) \/
     (exists r h', o = Ret (r, h') /\ is_open h' = false /\
        (forall sl, r = Ok sl -> len c + 8 <= isize_max ->
           sl_bytes sl = W /\ sealed W c = resource_bytes W /\ slice_ok sl /\ len (sl_mem sl) = sl_len sl + 8) /\
        (is_file st = false \/ w_faults w = [] -> c = zeros 8 ++ W -> exists sl, r = Ok sl)) \/
     isize_max < len c + 8))).
Proof.
  intros Hw MO Sok Dok Bc R. assert (Hw' := Hw).
  destruct Hw' as (s & E & H1 & H2 & H3 & H4 & C & A & L & B & U1 & U2).
  unfold handle_close in R. rewrite E, H2 in R. unfold mbind in R.
  assert (P2 : forall x, cell_at st name = x -> cells_of st name x) by (intros x <-; left; auto).
  assert (Hks : cell_at st (schema_name name) <> cell_at st name) by apply cell_schema.
  assert (Hks' : cell_at st name <> cell_at st (schema_name name)) by congruence.
  assert (Fin : forall wx, step (eq (cell_at st name)) w wx ->
     touches (cells_of st name) w wx /\ calm w wx /\ maps_ok wx /\
     bytes_at (cell_at st (schema_name name)) wx = Some schema).
  { intros wx Sx. split; [eapply touches_mono; [exact P2|apply Sx]|]. split; [apply Sx|].
    split; [eapply maps_ok_caches; [apply Sx|auto]|]. erewrite bytes_at_touches; [exact B|apply Sx|auto]. }
  destruct (write_padding s w) as [o1 w1] eqn:E1.
  destruct (puts_end _ _ s w c o1 w1 write_padding_puts A E1) as (S1 & X1). rewrite C in S1.
  assert (St1 : step (eq (cell_at st name)) w w1) by apply S1.
  destruct X1 as [(s1 & -> & C1 & A1)|(F & d1 & d2 & Ed & X)].
  2:{ destruct (can_fail_file s st name w C F) as (Hfile & Hf). destruct (Fin w1 St1) as (T & Cm & MO' & Bs).
      destruct X as [(k & s' & -> & C' & A')|(-> & Bp)]; injection R as <- <-.
      - split; auto. split; auto. split; auto. left. split; auto. split; auto. split.
        { left. exists k. eexists. split; [reflexivity|reflexivity]. }
        split; auto. exists (c ++ d1). assert (B' := at_pos_bytes _ _ _ _ A'). split; [congruence|]. left. exists d1, d2. auto.
      - split; auto. split; auto. split; auto. left. split; auto. split; auto. split; auto. split; auto.
        exists (c ++ d1). split; [congruence|]. left. exists d1, d2. auto. }
  destruct (seek_start s1 w1) as [o2 w2] eqn:E2.
  destruct (seek_start_cases s1 w1 _ _ _ _ A1 E2) as (S2 & B2 & X2). rewrite C1, C in S2, B2.
  assert (St2 : step (eq (cell_at st name)) w w2) by (eapply step_trans; [exact St1|apply S2]).
  destruct X2 as [(s2 & -> & C2 & A2)|(F & X)].
  2:{ destruct (can_fail_file s1 st name w1 (eq_trans C1 C) F) as (Hfile & Hf1). destruct (Fin w2 St2) as (T & Cm & MO' & Bs).
      assert (Hf : w_faults w <> []) by (intros HH; apply Hf1, St1; auto).
      destruct X as [(k & s' & -> & C')| ->]; injection R as <- <-.
      - split; auto. split; auto. split; auto. left. split; auto. split; auto. split.
        { left. exists k. eexists. split; [reflexivity|reflexivity]. }
        split; auto. exists (c ++ zeros 8). split; [congruence|]. left. exists (zeros 8), []. rewrite app_nil_r. auto.
      - split; auto. split; auto. split; auto. left. split; auto. split; auto. split; auto. split; auto.
        exists (c ++ zeros 8). split; [congruence|]. left. exists (zeros 8), []. rewrite app_nil_r. auto. }
  destruct (write_size b e (h_size h) s2 w2) as [o3 w3] eqn:E3.
  assert (C2' : cell_of s2 = cell_at st name) by congruence.
  destruct (write_size_puts b e (h_size h) s2 w2 _ _ _ _ A2 ltac:(split; [lia|apply len_nonneg]) E3) as (S3 & X3).
  rewrite C2' in S3, X3.
  assert (St3 : step (eq (cell_at st name)) w w3) by (eapply step_trans; [exact St2|apply S3]).
  destruct X3 as [(s3 & -> & C3 & A3)|(F & d1 & d2 & Ed & X)].
  2:{ destruct (can_fail_file s2 st name w2 C2' F) as (Hfile & Hf1). destruct (Fin w3 St3) as (T & Cm & MO' & Bs).
      assert (Hf : w_faults w <> []) by (intros HH; apply Hf1, St2; auto).
      destruct X as [(k & s' & -> & C' & A')|(-> & Bp)]; injection R as <- <-.
      - split; auto. split; auto. split; auto. left. split; auto. split; auto. split.
        { left. exists k. eexists. split; [reflexivity|reflexivity]. }
        split; auto. assert (Bp := at_pos_bytes _ _ _ _ A'). rewrite C', splice_start in Bp. eexists. split; [exact Bp|]. right.
        rewrite H4 in Ed. exists d1, d2. auto.
      - split; auto. split; auto. split; auto. left. split; auto. split; auto. split; auto. split; auto.
        rewrite splice_start in Bp. eexists. split; [exact Bp|]. right.
        rewrite H4 in Ed. exists d1, d2. auto. }
  (* finished *)
  rewrite splice_start, H4, le_bytes_length in A3.
  assert (Esl : le_bytes 8 (len W) ++ skipn 8 (c ++ zeros 8) = sealed W c).
  { unfold sealed. f_equal. rewrite skipn_app. destruct L as (_ & L & _). unfold len in L.
    replace (8 - length c)%nat with 0%nat by lia. auto. }
  rewrite Esl in A3. assert (B3 := at_pos_bytes _ _ _ _ A3). rewrite C3 in B3.
  destruct (Fin w3 St3) as (T3 & Cm3 & MO3 & Bs3).
  assert (Uc : uncached st name w3 /\ uncached st (schema_name name) w3).
  { split; eapply uncached_caches; try apply St3; auto. }
  assert (Sl8 := sealed_len W c L). pose proof (len_nonneg W). pose proof (len_nonneg c).
  assert (Fd : finds st w3 name (Some (sealed W c))).
  { apply finds_uncached; [apply Uc|auto|]. intros _ HH. rewrite HH in Sl8. rewrite len_nil in Sl8. lia. }
  assert (Fs : finds st w3 (schema_name name) (Some schema)).
  { apply finds_uncached; [apply Uc|auto|]. apply Sok. }
  rewrite H1, H3 in R.
  destruct (read b e st name schema w3) as [o4 w4] eqn:E4.
  destruct (read_cases _ _ _ _ _ _ _ _ MO3 E4) as (Rd & X4).
  destruct Rd as (T4 & Cm4 & F4 & Str4 & D4 & MO4 & K4).
  assert (w' = w4) by (destruct o4; injection R as <- <-; auto). subst w4.
  split; [eapply touches_trans; [exact T3|exact T4]|].
  split; [intros HH; apply Cm4, Cm3; auto|]. split; [auto|]. right.
  assert (Bk : forall x, bytes_at x w' = bytes_at x w3) by (intros [i k|k]; simpl; congruence).
  rewrite !Bk. split; auto. split; auto. split; [apply K4; auto|]. split; [apply K4; auto|].
  assert (HW : len W < 2 ^ 64) by (destruct Dok as (_ & D); unfold isize_max in D; lia).
  destruct X4 as [(k & -> & X)|[(-> & Hfile & Hf)|[(-> & X)|(c' & sc' & G1 & G2 & ->)]]].
  - injection R as <-. right. left. eexists. eexists. split; [reflexivity|]. split; [reflexivity|].
    split; [discriminate|]. intros Hf _. exfalso.
    destruct X as [(Hfl & X)|[X|X]]; [destruct Hf as [Hf|Hf]; [congruence|apply X; auto]|eapply X; eauto|eapply X; eauto].
  - injection R as <-. left. split; auto.
  - exfalso. destruct X as [X|X]; eapply X; eauto.
  - assert (Q1 := finds_fun _ _ _ _ _ G1 Fd). injection Q1 as ->.
    assert (Q2 := finds_fun _ _ _ _ _ G2 Fs). injection Q2 as ->.
    destruct (Z.lt_ge_cases isize_max (len c + 8)) as [Hbig|Hsmall]; [auto|].
    assert (Ssl : stored_ok (sealed W c)).
    { split; [apply bytes_ok_sealed; auto|]. rewrite Sl8. lia. }
    destruct (check_resource_cases b e name schema (sealed W c) schema Ssl) as [(r & Er & V & Sr)|(_ & _ & G & _)].
    + unfold checked in R. rewrite Er in R. injection R as <-. right. left.
      eexists. eexists. split; [reflexivity|]. split; [reflexivity|]. split.
      * intros sl -> _. simpl in V. inversion V as [d pad Ef Lp Uf Es| | |]; subst.
        destruct (sealed_framed W c _ _ L HW Ssl Ef Lp) as (-> & Er2).
        destruct (Sr sl eq_refl) as (S1' & S2'). auto.
      * intros Hf Hc. assert (HL : len c = 8 + len W) by (rewrite Hc, len_app; reflexivity).
        assert (Ex := sealed_exact W c L HL). rewrite Ex in V. unfold resource_bytes in V.
        apply verdict_framed in V; [|reflexivity|apply Sok|reflexivity].
        destruct r as [sl|x]; [eauto|discriminate].
    + exfalso. rewrite sealed_header in G by auto. destruct Dok as (_ & D). unfold isize_max in D. lia.
Qed.

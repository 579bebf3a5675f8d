(** What a reader sees while a writer is at work. *)
From Verif Require Import Base BaseFacts Codec CodecSpec CodecFacts Structs StructsSpec StructsFacts Views ViewsSpec ViewsFacts.
From Verif Require Import Storage PathFacts StorageSpec StorageFacts StorageMore StorageUse Writers HandleFacts WritersSpec EncodeFacts ExtVecFacts ExtVecUse.
From Verif Require Import MultiViews MultiSpec MultiViewFacts MultiVecFacts MultiVecUse MomentSpec MomentFacts MomentLogs.
Local Open Scope list_scope.
Local Open Scope Z_scope.

Lemma not_after_refl x : not_after x x.
Proof. right. auto. Qed.
Lemma not_after_trans x y z : not_after x y -> not_after y z -> not_after x z.
Proof. unfold not_after. lia. Qed.
Lemma schedule_mono (tau : nat -> moment) : (forall i, not_after (tau i) (tau (S i))) ->
  forall i j, (i <= j)%nat -> not_after (tau i) (tau j).
Proof.
  intros H i j L. induction L; [apply not_after_refl|]. eapply not_after_trans; eauto.
Qed.

(** * Contents *)
Definition stage (T h : list Z) (t s : nat) : list Z := firstn s h ++ skipn s (firstn t T).
Lemma stage_length T h t s : (t <= length T)%nat -> (s <= length h)%nat -> (length h <= length T)%nat -> (0 < s -> t = length T)%nat ->
  length (stage T h t s) = t.
Proof.
  intros H1 H2 H3 H4. unfold stage. rewrite app_length, firstn_length, skipn_length, firstn_length.
  destruct s; lia.
Qed.
Lemma stage_body T h t s : (s <= length h)%nat -> (length h <= 8)%nat -> (8 <= t)%nat -> (t <= length T)%nat ->
  skipn 8 (stage T h t s) = skipn 8 (firstn t T).
Proof.
  intros H1 H2 H3 H4. unfold stage. rewrite skipn_app, firstn_length. rewrite (skipn_all2 (firstn s h)) by (rewrite firstn_length; lia).
  rewrite app_nil_l, skipn_add. f_equal. lia.
Qed.

(** The two ways a resource with data [D] is written: the size first, or zeros
    first and the size at the end. *)
Definition plan_of (D T h : list Z) : Prop :=
  (T = resource_bytes D /\ h = []) \/ (T = zeros 8 ++ D ++ zeros 8 /\ h = le_bytes 8 (len D)).

Lemma plan_T D T h : plan_of D T h -> exists x, length x = 8%nat /\ T = x ++ D ++ zeros 8.
Proof.
  intros [(-> & _)|(-> & _)].
  - exists (le_bytes 8 (len D)). split; [apply le_bytes_length|reflexivity].
  - exists (zeros 8). auto.
Qed.
Lemma plan_len D T h : plan_of D T h -> len T = len D + 16 /\ (length h <= 8)%nat /\ (length h <= length T)%nat.
Proof.
  intros P. destruct (plan_T D T h P) as (x & Lx & E). rewrite E, !len_app, len_zeros, app_length by lia.
  assert (len x = 8) by (unfold len; lia). split; [lia|].
  destruct P as [(_ & ->)|(_ & ->)]; simpl length; rewrite ?le_bytes_length; lia.
Qed.
Lemma plan_bytes D T h t s : plan_of D T h -> bytes_ok D -> bytes_ok (stage T h t s).
Proof.
  intros P B. unfold stage. apply bytes_ok_app. split.
  - apply bytes_ok_firstn. destruct P as [(_ & ->)|(_ & ->)]; [constructor|apply le_bytes_ok].
  - apply bytes_ok_skipn, bytes_ok_firstn. destruct P as [(-> & _)|(-> & _)].
    + unfold resource_bytes, framed. apply bytes_ok_app. split; [apply le_bytes_ok|]. apply bytes_ok_app. split; auto. apply bytes_ok_zeros.
    + apply bytes_ok_app. split; [apply bytes_ok_zeros|]. apply bytes_ok_app. split; auto. apply bytes_ok_zeros.
Qed.

Lemma firstn8_stage D T h t s : plan_of D T h -> (16 <= t)%nat -> (t <= length T)%nat -> (s <= length h)%nat ->
  firstn 8 (stage T h t s) = firstn s h ++ skipn s (firstn 8 T).
Proof.
  intros P H1 H2 H3. destruct (plan_len D T h P) as (_ & L8 & _). unfold stage.
  rewrite firstn_app, firstn_length. rewrite (firstn_all2 (n := 8)) by (rewrite firstn_length; lia). f_equal.
  rewrite firstn_skipn_comm, firstn_firstn. f_equal. f_equal. lia.
Qed.

Lemma le_val_split p q D : le_bytes 8 (len D) = p ++ q -> len D < 2 ^ 64 -> 0 <= le_val p <= len D /\ (q = [] -> le_val p = len D) /\ (p = [] -> le_val p = 0).
Proof.
  intros E L. assert (Hv : le_val (p ++ q) = len D).
  { rewrite <- E, le_val_bytes. apply Z.mod_small. pose proof (len_nonneg D). simpl. lia. }
  assert (B : bytes_ok (le_bytes 8 (len D))) by apply le_bytes_ok. rewrite E in B. apply bytes_ok_app in B. destruct B as (Bp & Bq).
  assert (Hp := le_val_nonneg p Bp). assert (Hq := le_val_nonneg q Bq). rewrite le_val_app in Hv.
  assert (0 < 256 ^ Z.of_nat (length p)) by (apply Z.pow_pos_nonneg; lia).
  split; [nia|]. split; [intros ->; simpl le_val in Hv; lia|intros ->; reflexivity].
Qed.

Lemma stage_header D T h t s : plan_of D T h -> len D < 2 ^ 64 -> (16 <= t)%nat -> (t <= length T)%nat -> (s <= length h)%nat ->
  0 <= header (stage T h t s) <= len D /\
  (s = 0%nat \/ s = length h -> header (stage T h t s) = 0 /\ h <> [] /\ s = 0%nat \/ header (stage T h t s) = len D).
Proof.
  intros P L H1 H2 H3. unfold header. rewrite (firstn8_stage D) by auto. destruct P as [(-> & ->)|(-> & ->)].
  - simpl in H3. assert (s = 0%nat) by lia. subst s. rewrite skipn_O, firstn_O, app_nil_l. unfold resource_bytes. rewrite framed_header.
    rewrite le_val_bytes. rewrite Z.mod_small by (pose proof (len_nonneg D); simpl; lia). pose proof (len_nonneg D). auto with zarith.
  - rewrite firstn_app_exact by reflexivity.
    assert (Zs : le_val (skipn s (zeros 8)) = 0).
    { assert (Hz := le_val_app (firstn s (zeros 8)) (skipn s (zeros 8))).
      rewrite firstn_skipn, le_val_zeros in Hz.
      assert (0 <= le_val (firstn s (zeros 8))) by (apply le_val_nonneg, bytes_ok_firstn, bytes_ok_zeros).
      assert (0 <= le_val (skipn s (zeros 8))) by (apply le_val_nonneg, bytes_ok_skipn, bytes_ok_zeros).
      assert (0 < 256 ^ Z.of_nat (length (firstn s (zeros 8)))) by (apply Z.pow_pos_nonneg; lia). nia. }
    rewrite le_val_app, Zs, Z.mul_0_r, Z.add_0_r.
    destruct (le_val_split (firstn s (le_bytes 8 (len D))) (skipn s (le_bytes 8 (len D))) D) as (X1 & X2 & X3); auto.
    { symmetry. apply firstn_skipn. }
    split; auto. intros [->| ->].
    + left. split; [apply X3; reflexivity|]. split; auto. intros E. apply (f_equal (@length Z)) in E. rewrite le_bytes_length in E. discriminate.
    + right. apply X2. apply skipn_all.
Qed.

(** * Reading *)
Lemma obind_ret {A B} (a : A) (f : A -> outcome B) : obind (Ret a) f = f a.
Proof. reflexivity. Qed.
Lemma restart_files w : w_files (restart w) = w_files w.
Proof. reflexivity. Qed.

Lemma mmap_fresh path w : fst (mmap_read 0 path (restart w)) =
  match w_files w (key_of path) with
  | None => Ret (Er (if is_dir (key_of path) w then KOther else KNotFound))
  | Some c => if len c =? 0 then Ret (Er KInvalidInput) else Ret (Ok (whole c))
  end.
Proof.
  unfold mmap_read. simpl w_maps. cbn iota. unfold syscall, next_fault. simpl w_faults. cbn iota. rewrite restart_files.
  destruct (w_files w (key_of path)) as [c|] eqn:E; [|reflexivity].
  destruct (len c =? 0); [reflexivity|]. cbn zeta. simpl fst. unfold mapped, file_content. simpl w_files. rewrite E.
  rewrite Z.leb_refl. unfold omap, obind, whole. do 3 f_equal. unfold len. rewrite Nat2Z.id, firstn_all. auto.
Qed.

Lemma mapped_ok k l w c : w_files w k = Some c -> 0 <= l <= len c -> mapped k l w = Ret (whole (firstn (Z.to_nat l) c)).
Proof.
  intros E H. unfold mapped, file_content. rewrite E. replace (l <=? len c) with true by lia.
  unfold whole. rewrite len_firstn by lia. auto.
Qed.

Lemma during_plan b e base name expected schema D T h (W : nat -> world) torn
    (born borns : nat -> bool) (t s ts : nat -> nat) :
  let st := FileStorage 0 base in
  plan_of D T h -> data_ok D ->
  (forall i, w_files (W i) (res_key st name) = if born i then Some (stage T h (t i) (s i)) else None) ->
  (forall i, w_files (W i) (res_key st (schema_name name)) = if borns i then Some (firstn (ts i) schema) else None) ->
  (forall i j, (i <= j)%nat -> (t i <= t j)%nat /\ (born i = true -> born j = true)) ->
  (forall i j, (i <= j)%nat -> (ts i <= ts j)%nat /\ (borns i = true -> borns j = true)) ->
  (forall i, (t i <= length T)%nat /\ (s i <= length h)%nat /\ (0 < s i -> t i = length T)%nat) ->
  (forall i, (ts i <= length schema)%nat) ->
  (~ torn -> s 4%nat = 0%nat \/ s 4%nat = length h) ->
  exists r, read_during b e W base name expected = Ret r /\
    forall sl, r = Ok sl -> accepted D torn schema expected W base name sl /\ (h = [] -> sl_bytes sl = D).
Proof.
  intros st P (Bd & Ld) Hd Hs Md Ms Bt Bs Tn. destruct (plan_len D T h P) as (LT & L8 & Lh). unfold isize_max in Ld.
  unfold read_during. fold st.
  assert (PE : forall k w, fst (path_exists k (restart w)) = Ret (on_disk k w)) by reflexivity.
  rewrite PE. rewrite ?obind_ret. destruct (on_disk (res_key st name) (W 0%nat)); [|eexists; split; [reflexivity|discriminate]].
  cbn [negb]. rewrite mmap_fresh. change (key_of (res_path st name)) with (res_key st name). rewrite Hd.
  destruct (born 1%nat) eqn:B1; [|eexists; split; [reflexivity|discriminate]].
  set (c1 := stage T h (t 1%nat) (s 1%nat)). destruct (len c1 =? 0) eqn:Z1; [eexists; split; [reflexivity|discriminate]|].
  rewrite ?obind_ret. rewrite PE. rewrite ?obind_ret. destruct (on_disk (res_key st (schema_name name)) (W 2%nat)); [|eexists; split; [reflexivity|discriminate]].
  cbn [negb]. rewrite mmap_fresh. change (key_of (res_path st (schema_name name))) with (res_key st (schema_name name)). rewrite Hs.
  destruct (borns 3%nat) eqn:B3; [|eexists; split; [reflexivity|discriminate]].
  set (sc3 := firstn (ts 3%nat) schema). destruct (len sc3 =? 0) eqn:Z3; [eexists; split; [reflexivity|discriminate]|].
  rewrite ?obind_ret. change (sl_len (whole c1)) with (len c1). change (sl_len (whole sc3)) with (len sc3).
  assert (Lt : forall i, len (stage T h (t i) (s i)) = Z.of_nat (t i)).
  { intros i. destruct (Bt i) as (X1 & X2 & X3). unfold len. rewrite stage_length; auto. }
  assert (Lc1 : len c1 = Z.of_nat (t 1%nat)) by apply Lt.
  assert (Bn : forall i, (1 <= i)%nat -> born i = true) by (intros i Hi; apply (Md 1%nat i Hi); auto).
  assert (Tm : forall i, (1 <= i)%nat -> (t 1%nat <= t i)%nat) by (intros i Hi; apply (Md 1%nat i Hi)).
  set (c4 := stage T h (t 4%nat) (s 4%nat)).
  assert (Lc4 : len c4 = Z.of_nat (t 4%nat)) by apply Lt.
  assert (T4 := Tm 4%nat ltac:(lia)).
  assert (Lsc : forall i, len (firstn (ts i) schema) = Z.of_nat (ts i)).
  { intros i. unfold len. rewrite firstn_length. specialize (Bs i). lia. }
  assert (Ls3 : len sc3 = Z.of_nat (ts 3%nat)) by apply Lsc.
  destruct (Ms 3%nat 5%nat ltac:(lia)) as (S35 & Bb). specialize (Bb B3).
  rewrite (mapped_ok _ _ _ c4); [|rewrite Hd, Bn by lia; reflexivity|lia]. rewrite ?obind_ret.
  rewrite (mapped_ok _ _ _ (firstn (ts 5%nat) schema)); [|rewrite Hs, Bb; reflexivity|rewrite Lsc; lia]. rewrite ?obind_ret.
  rewrite Ls3, Nat2Z.id. rewrite firstn_firstn, Nat.min_l by lia. fold sc3. rewrite Lc1, Nat2Z.id.
  set (c := firstn (t 1%nat) c4).
  assert (Lc : len c = Z.of_nat (t 1%nat)) by (unfold c, len in *; rewrite firstn_length; lia).
  assert (Bc : bytes_ok c) by (apply bytes_ok_firstn, (plan_bytes D); auto).
  destruct (Bt 4%nat) as (U1 & U2 & U3). destruct (Bt 1%nat) as (V1 & V2 & V3).
  assert (So : stored_ok c) by (split; auto; unfold isize_max, len in *; lia).
  assert (Hc : 16 <= len c -> header c = header c4).
  { intros H16. unfold header, c. f_equal. rewrite firstn_firstn. f_equal. lia. }
  assert (SH : 16 <= len c -> 0 <= header c <= len D /\ (s 4%nat = 0%nat \/ s 4%nat = length h -> header c = 0 /\ h <> [] /\ s 4%nat = 0%nat \/ header c = len D)).
  { intros H16. rewrite Hc by auto. apply (stage_header D); auto; unfold len in *; lia. }
  destruct (check_resource_cases b e name expected c sc3 So) as [(r & E & V & K)|(_ & H16 & Hh & _)].
  2:{ exfalso. destruct (SH H16) as (X & _). lia. }
  exists r. split; auto. intros sl ->. destruct (K sl eq_refl) as (Sok & Lm). simpl in V.
  inversion V as [d pad Ec Lp Ut Es Er| | |]; subst d.
  assert (Ls : len (sl_bytes sl) = sl_len sl).
  { apply len_sl_bytes. auto. }
  assert (L1 : len c = sl_len sl + 16) by (rewrite Ec, framed_len, Lp, Ls; lia).
  pose proof (len_nonneg (sl_bytes sl)) as Nn.
  assert (H16 : 16 <= len c) by lia.
  assert (Hv : header c = sl_len sl).
  { rewrite Ec, header_framed; [auto|]. unfold len in *. lia. }
  destruct (SH H16) as (SH1 & SH2). rewrite Hv in SH1, SH2.
  (* the bytes, at any time *)
  assert (Body : forall i, (4 <= i)%nat -> firstn (Z.to_nat (sl_len sl)) (skipn 8 (firstn (t 1%nat) (stage T h (t i) (s i)))) = firstn (Z.to_nat (sl_len sl)) D).
  { intros i Hi. assert (Ti := Tm i ltac:(lia)). destruct (Bt i) as (Y1 & Y2 & Y3).
    assert (8 <= t i)%nat by (unfold len in *; lia).
    rewrite skipn_firstn_comm. rewrite stage_body by (auto; lia). rewrite skipn_firstn_comm, !firstn_firstn.
    destruct (plan_T D T h P) as (x & Lx & ET). rewrite ET, skipn_app_exact by auto.
    rewrite firstn_app. replace (Nat.min _ _ - length D)%nat with 0%nat by (unfold len in *; lia). rewrite firstn_O, app_nil_r.
    f_equal. lia. }
  assert (Eb : sl_bytes sl = firstn (Z.to_nat (sl_len sl)) D).
  { rewrite <- (Body 4%nat) by auto. fold c4. fold c. rewrite Ec. rewrite <- Ls at 1. symmetry. apply framed_data. }
  assert (Full : sl_len sl = len D -> sl_bytes sl = D).
  { intros X. rewrite Eb, X. apply firstn_all2. unfold len. lia. }
  split; [split; [|split; [|split; [|split; [|split]]]]|].
  - (* schema *)
    exists (skipn (ts 3%nat) schema). rewrite <- Es. symmetry. apply firstn_skipn.
  - auto.
  - lia.
  - auto.
  - intros NT. destruct (SH2 (Tn NT)) as [(X & _)|X]; auto.
  - intros i Hi. unfold look. rewrite (mapped_ok _ _ _ (stage T h (t i) (s i))).
    + rewrite ?obind_ret. f_equal. rewrite Eb. rewrite <- (Body i Hi).
      replace (Z.to_nat (sl_len sl + SIZE_OF_SIZE_TYPE + PADDING_SIZE)) with (t 1%nat) by (unfold SIZE_OF_SIZE_TYPE, PADDING_SIZE; lia).
      reflexivity.
    + fold st. rewrite Hd, Bn by lia. auto.
    + rewrite Lt. assert (Ti := Tm i ltac:(lia)). unfold SIZE_OF_SIZE_TYPE, PADDING_SIZE. lia.
  - intros Hn. destruct (SH2 ltac:(left; subst h; simpl in U2; lia)) as [(_ & X & _)|X]; [contradiction|auto].
Qed.

Lemma during_timelines {A} b e (m : M A) w tau base name expected schema D T h :
  let st := FileStorage 0 base in
  plan_of D T h -> data_ok D -> (forall i, not_after (tau i) (tau (S i))) ->
  timeline (fun x => w_files (world_at m w x) (res_key st name)) T h ->
  timeline (fun x => w_files (world_at m w x) (res_key st (schema_name name))) schema [] ->
  let W i := world_at m w (tau i) in
  exists r, read_during b e W base name expected = Ret r /\
    forall sl, r = Ok sl -> accepted D (bytes_done (tau 4%nat) <> 0%nat) schema expected W base name sl /\ (h = [] -> sl_bytes sl = D).
Proof.
  intros st P Dok Ht (bd & t & s & M1 & B1 & C1) (bs & t2 & s2 & M2 & B2 & C2) W.
  assert (Mono := schedule_mono tau Ht).
  apply (during_plan b e base name expected schema D T h W _ (fun i => bd (tau i)) (fun i => bs (tau i))
           (fun i => t (tau i)) (fun i => s (tau i)) (fun i => t2 (tau i))); auto.
  - intros i. apply (C1 (tau i)).
  - intros i. unfold W. assert (E := C2 (tau i)). cbv beta in E. unfold st in *. rewrite E. destruct (B2 (tau i)) as (_ & X & _). simpl in X.
    replace (s2 (tau i)) with 0%nat by lia. destruct (bs (tau i)); auto.
  - intros i j Hij. destruct (M1 _ _ (Mono i j Hij)) as (X & _ & Y). auto.
  - intros i j Hij. destruct (M2 _ _ (Mono i j Hij)) as (X & _ & Y). auto.
  - intros i. destruct (B1 (tau i)) as (X & Y & Z & _). auto.
  - intros i. apply B2.
  - intros NT. destruct (B1 (tau 4%nat)) as (_ & _ & _ & X). apply X. destruct (Nat.eq_dec (bytes_done (tau 4%nat)) 0); auto. contradiction.
Qed.

Lemma key_schema id base name : res_key (FileStorage id base) name <> res_key (FileStorage id base) (schema_name name).
Proof. intros H. apply (cell_schema (FileStorage id base) name). simpl. congruence. Qed.

(** * The writers *)
Lemma timeline_logs {A} (m : M A) w L o w0 k T h : logs m w L o w0 ->
  timeline (fun x => upto L (calls_done x) (bytes_done x) (w_files w) k) T h ->
  timeline (fun x => w_files (world_at m w x) k) T h.
Proof.
  intros Lg (bd & t & s & M & B & C). exists bd, t, s. split; auto. split; auto. intros x.
  rewrite (world_at_logs m w L o w0 x Lg). apply C.
Qed.

Lemma some_inj {A} (x y : A) : Some x = Some y -> x = y.
Proof. congruence. Qed.
Lemma ended_final k L T h f : ended k L T h -> acts L f k = Some (h ++ skipn (length h) T).
Proof.
  intros (A & B & C & -> & HA & HB & HC).
  rewrite acts_app. cbn [acts]. rewrite acts_app. cbn [acts]. rewrite (acts_away k C) by auto.
  assert (X := acts_appends k B _ (act (Create k) (acts A f)) [] HB (kupd_same _ _ _)).
  simpl app in X. generalize dependent (act (Create k) (acts A f)). intros g X.
  simpl. rewrite kupd_same, X, splice_start. auto.
Qed.

Lemma sealed_log_data kd ks schema L f D : sealed_log kd ks schema L ->
  acts L f kd = Some (resource_bytes D) -> ended kd L (zeros 8 ++ D ++ zeros 8) (le_bytes 8 (len D)).
Proof.
  intros (_ & d & n & En) Fd. rewrite (ended_final _ _ _ _ _ En) in Fd. apply some_inj in Fd.
  rewrite le_bytes_length, skipn_app_exact in Fd by reflexivity. unfold resource_bytes, framed in Fd.
  assert (E1 := f_equal (firstn 8) Fd). rewrite !firstn_app_exact in E1 by apply le_bytes_length.
  assert (E2 := f_equal (skipn 8) Fd). rewrite !skipn_app_exact in E2 by apply le_bytes_length.
  apply app_inv_tail in E2. subst d. rewrite <- E1. exact En.
Qed.

Section Writers.
Variables (b : build) (e : endian).

Lemma write_during id base name schema data w : let st := FileStorage id base in
  w_faults w = [] -> fresh_name st name w -> unblocked st name w -> absent st name w -> data_ok data ->
  forall tau, (forall i, not_after (tau i) (tau (S i))) ->
  let W i := world_at (write b e st name schema data) w (tau i) in
  forall b' e' expected, exists r, read_during b' e' W base name expected = Ret r /\
    forall sl, r = Ok sl -> accepted data (bytes_done (tau 4%nat) <> 0%nat) schema expected W base name sl /\ sl_bytes sl = data.
Proof.
  intros st Hf F (R1 & R2) (A1 & A2) Dok tau Ht W b' e' expected.
  assert (Wf : set_faults [] w = w) by (destruct w; simpl in *; subst; reflexivity).
  destruct (traced_write b e id base name schema data w (key_schema id base name)) as (L & o & w0 & Lg & Q).
  destruct (write_progresses b e st name schema data w) as (w1 & Ew); auto; try (destruct F; apply fresh_start; auto).
  assert (C := logs_clean _ _ _ _ _ Lg). rewrite Wf in C. fold st in C. rewrite Ew in C. injection C as <- _.
  destruct (Q eq_refl) as (G1 & G2 & _).
  destruct (during_timelines b' e' (write b e st name schema data) w tau base name expected schema data (resource_bytes data) []) as (r & E & K); auto.
  - left. auto.
  - exact (timeline_logs _ w L _ w0 _ _ _ Lg (growing_timeline _ _ _ _ G2 A1)).
  - exact (timeline_logs _ w L _ w0 _ _ _ Lg (growing_timeline _ _ _ _ G1 A2)).
  - exists r. split; auto. intros sl Hr. destruct (K sl Hr) as (K1 & K2). auto.
Qed.

Lemma sealed_during {A} (m : M A) id base name schema D w L o w0 : let st := FileStorage id base in
  logs m w L o w0 -> absent st name w -> data_ok D ->
  sealed_log (res_key st name) (res_key st (schema_name name)) schema L ->
  w_files w0 (res_key st name) = Some (resource_bytes D) ->
  forall tau, (forall i, not_after (tau i) (tau (S i))) ->
  let W i := world_at m w (tau i) in
  forall b' e' expected, exists r, read_during b' e' W base name expected = Ret r /\
    forall sl, r = Ok sl -> accepted D (bytes_done (tau 4%nat) <> 0%nat) schema expected W base name sl.
Proof.
  intros st Lg (A1 & A2) Dok SL Fd tau Ht W b' e' expected.
  assert (En := sealed_log_data _ _ schema L (w_files w) D SL (eq_trans (f_equal (fun g => g _) (eq_sym (proj1 Lg))) Fd)). destruct SL as (G1 & _).
  destruct (during_timelines b' e' m w tau base name expected schema D (zeros 8 ++ D ++ zeros 8) (le_bytes 8 (len D))) as (r & E & K); auto.
  - right. auto.
  - refine (timeline_logs _ w L _ w0 _ _ _ Lg (ended_timeline _ _ _ _ _ En A1 _)). rewrite le_bytes_length, app_length. simpl. lia.
  - exact (timeline_logs _ w L _ w0 _ _ _ Lg (growing_timeline _ _ _ _ G1 A2)).
  - exists r. split; auto. intros sl Hr. apply (K sl Hr).
Qed.

Lemma only_grows_quiet ops st w : only_grows ops -> w_faults w = [] -> quiet st (others ops) w.
Proof.
  intros H Hf. right. split; auto. assert (X : others ops = []).
  { induction ops as [|[sets|f] ops IH]; simpl in *; auto. contradiction. }
  rewrite X. intros f [].
Qed.
Lemma only_mgrows_quiet ops st w : only_mgrows ops -> w_faults w = [] -> quiet st (mv_others ops) w.
Proof.
  intros H Hf. right. split; auto. assert (X : mv_others ops = []).
  { induction ops as [|[items|f] ops IH]; simpl in *; auto. contradiction. }
  rewrite X. intros f [].
Qed.

Lemma ev_during lim s id base name schema ops w : let st := FileStorage id base in
  w_faults w = [] -> wf_struct s -> schema_ok st schema -> maps_ok w -> fresh_name st name w -> unblocked st name w -> absent st name w ->
  only_grows ops -> Forall (ev_op_ok st name s) ops -> grows ops * s_size s + 16 <= isize_max ->
  exists D, array_of s D (elements s (all_sets ops)) /\ records s D = elements s (all_sets ops) /\
  forall tau, (forall i, not_after (tau i) (tau (S i))) ->
  let W i := world_at (ev_session b e lim s st name schema ops) w (tau i) in
  forall b' e' expected, exists r, read_during b' e' W base name expected = Ret r /\
    forall sl, r = Ok sl -> accepted D (bytes_done (tau 4%nat) <> 0%nat) schema expected W base name sl.
Proof.
  intros st Hf Hwf Sok MO F Un Ab Og Ops HL.
  assert (Wf : set_faults [] w = w) by (destruct w; simpl in *; subst; reflexivity).
  destruct (traced_ev_session b e lim s id base name schema ops w Og (key_schema id base name)) as (L & o & w0 & Lg & Q).
  destruct (ev_progress b e lim st name schema s ops w Hwf Sok MO F Un Ops HL (only_grows_quiet ops st w Og Hf))
    as (v & w1 & flags & v' & w2 & sl & w3 & C & R & Fl & Cl).
  destruct (ev_closed_ok b e lim st name schema s ops w v w1 flags v' w2 sl w3 Hwf Sok MO F Ops HL C R Cl (or_introl Fl))
    as (Lf & Sl & Sm & Ar & Rc & Ll & El & MO3 & B1 & B2 & F1 & F2).
  assert (X := logs_clean _ _ _ _ _ Lg). rewrite Wf in X. fold st in X.
  assert (Es : ev_session b e lim s st name schema ops w = (Ret (Ok (flags, Ok sl)), w3)).
  { unfold ev_session, mtry, mbind. rewrite C. cbn beta iota. rewrite R. cbn beta iota. cbn [snd fst]. rewrite Cl. reflexivity. }
  rewrite Es in X. injection X as <- ->. specialize (Q _ eq_refl).
  rewrite (kept_all ops flags Lf Fl) in *. exists (sl_bytes sl). split; auto. split; auto.
  intros tau Ht W b' e' expected.
  refine (sealed_during (ev_session b e lim s st name schema ops) id base name schema (sl_bytes sl) w L _ w0 Lg Ab _ Q B1 tau Ht b' e' expected).
  assert (G := kept_grows ops flags Lf Fl). rewrite (kept_all ops flags Lf Fl) in G.
  split; [destruct Sl as (Sl1 & Sl2 & Sl3); apply bytes_ok_firstn; auto|]. rewrite len_sl_bytes by auto. nia.
Qed.

Lemma mv_session_log lim size bits ts id base name schema ops w : let st := FileStorage id base in
  w_faults w = [] -> wf_struct (index_struct size bits) -> wf_vdesc ts -> valid_name name -> mv_schema_ok st schema -> maps_ok w ->
  mv_fresh st name w -> mv_unblocked st name w ->
  only_mgrows ops -> Forall (mv_op_ok st name ts) ops -> mv_fits size bits ts ops ->
  let kd := res_key st name in let ks := res_key st (schema_name name) in
  let ki := res_key st (index_name name) in let kis := res_key st (schema_name (index_name name)) in
  exists iv d L o w0, mav_shows ts size bits (mkMav iv d) (buckets ts (mv_all ops)) /\ data_ok (sl_bytes iv) /\ data_ok (sl_bytes d) /\
    logs (mv_session b e lim size bits ts st name schema ops) w L o w0 /\
    sealed_log kd ks schema L /\ sealed_log ki kis (index_schema schema) L /\ index_last kd ki L /\
    w_files w0 kd = Some (resource_bytes (sl_bytes d)) /\ w_files w0 ki = Some (resource_bytes (sl_bytes iv)).
Proof.
  intros st Hf Hwi Hwf Hn Sok MO F Un Og Ops Fit kd ks ki kis.
  assert (Wf : set_faults [] w = w) by (destruct w; simpl in *; subst; reflexivity).
  assert (N : kd <> ks /\ ki <> kis /\ kd <> ki /\ kd <> kis /\ ks <> ki /\ ks <> kis).
  { destruct (index_cells st name Hn) as ((X1 & X2) & X3 & X4). unfold cells_of in *.
    split; [apply key_schema|]. split; [apply key_schema|].
    assert (C : forall n m, cell_at st n <> cell_at st m -> res_key st n <> res_key st m) by (intros n m HH HE; apply HH; exact (f_equal CFile HE)).
    repeat split; apply C; intuition congruence. }
  destruct N as (N1 & N2 & N3 & N4 & N5 & N6).
  destruct (traced_mv_session b e lim size bits ts id base name schema ops w Og N1 N2 N3 N4 N5 N6) as (L & o & w0 & Lg & Q).
  destruct (mv_progress b e lim size bits ts st name schema Hwi Hwf Hn ops w Sok MO F Un Ops Fit (only_mgrows_quiet ops st w Og Hf))
    as (v & w1 & flags & v' & w2 & iv & d & w3 & C & R & Fl & Cl).
  destruct (mv_closed_ok b e lim size bits ts st name schema Hwi Hwf Hn ops w v w1 flags v' w2 iv d w3 Sok MO F Ops Fit C R Cl (or_introl Fl))
    as (Lf & MO3 & Sh & Of & Li & S1 & S2 & D1 & D2 & _).
  assert (X := logs_clean _ _ _ _ _ Lg). rewrite Wf in X. fold st in X.
  assert (Es : mv_session b e lim size bits ts st name schema ops w = (Ret (Ok (flags, Ok (mkMav iv d))), w3)).
  { unfold mv_session, mtry, mbind. rewrite C. cbn beta iota. rewrite R. cbn beta iota. cbn [snd fst]. rewrite Cl. reflexivity. }
  rewrite Es in X. injection X as <- ->. specialize (Q _ _ eq_refl). destruct Q as (Q1 & Q2 & Q3).
  rewrite (mv_kept_all ops flags Lf Fl) in *. exists iv, d, L, (Ret (Ok (flags, Ok (mkMav iv d)))), w0.
  repeat (split; auto). apply S1. apply S2.
Qed.

Lemma mv_during lim size bits ts id base name schema ops w : let st := FileStorage id base in
  w_faults w = [] -> wf_struct (index_struct size bits) -> wf_vdesc ts -> valid_name name -> mv_schema_ok st schema -> maps_ok w ->
  mv_fresh st name w -> mv_unblocked st name w -> absent st name w -> absent st (index_name name) w ->
  only_mgrows ops -> Forall (mv_op_ok st name ts) ops -> mv_fits size bits ts ops ->
  exists iv d, mav_shows ts size bits (mkMav iv d) (buckets ts (mv_all ops)) /\
  forall tau, (forall i, not_after (tau i) (tau (S i))) ->
  let W i := world_at (mv_session b e lim size bits ts st name schema ops) w (tau i) in
  forall b' e' expected,
    (exists r, read_during b' e' W base (index_name name) expected = Ret r /\
       forall sl, r = Ok sl -> accepted (sl_bytes iv) (bytes_done (tau 4%nat) <> 0%nat) (index_schema schema) expected W base (index_name name) sl) /\
    (exists r, read_during b' e' W base name expected = Ret r /\
       forall sl, r = Ok sl -> accepted (sl_bytes d) (bytes_done (tau 4%nat) <> 0%nat) schema expected W base name sl).
Proof.
  intros st Hf Hwi Hwf Hn Sok MO F Un Ab Abi Og Ops Fit.
  destruct (mv_session_log lim size bits ts id base name schema ops w Hf Hwi Hwf Hn Sok MO F Un Og Ops Fit)
    as (iv & d & L & o & w0 & Sh & D2 & D1 & Lg & Q1 & Q2 & _ & F1 & F2).
  exists iv, d. split; auto. intros tau Ht W b' e' expected. split.
  - exact (sealed_during (mv_session b e lim size bits ts st name schema ops) id base (index_name name) (index_schema schema) (sl_bytes iv) w L _ w0 Lg Abi D2 Q2 F2 tau Ht b' e' expected).
  - exact (sealed_during (mv_session b e lim size bits ts st name schema ops) id base name schema (sl_bytes d) w L _ w0 Lg Ab D1 Q1 F1 tau Ht b' e' expected).
Qed.

End Writers.

(** * One world: the usual read *)
Lemma mapped_files k l w w' : w_files w' = w_files w -> mapped k l w' = mapped k l w.
Proof. intros E. unfold mapped, file_content. rewrite E. auto. Qed.

Lemma read_resource_new base n w : w_faults w = [] -> w_maps w 0%nat (res_path (FileStorage 0 base) n) = None ->
  let k := res_key (FileStorage 0 base) n in
  exists w', w_faults w' = [] /\ w_files w' = w_files w /\ w_dirs w' = w_dirs w /\
    (forall p, p <> res_path (FileStorage 0 base) n -> w_maps w' 0%nat p = w_maps w 0%nat p) /\
    read_resource (FileStorage 0 base) n w =
      (if on_disk k w then
         match w_files w k with
         | None => Ret (Er (if is_dir k w then KOther else KNotFound))
         | Some c => if len c =? 0 then Ret (Er KInvalidInput) else Ret (Ok (whole c))
         end else Ret (Er KNotFound), w').
Proof.
  intros Hf Hm k. unfold read_resource, mbind, path_exists, mbind, syscall, next_fault. rewrite Hf. cbn iota.
  assert (E : set_faults [] w = w) by (destruct w; simpl in *; subst; reflexivity).
  change (key_of _) with k. fold k. destruct (on_disk k w) eqn:D; [|exists w; repeat split; auto].
  unfold mmap_read, mret. rewrite Hm. unfold syscall, next_fault. rewrite Hf. change (key_of _) with k.
  destruct (w_files w k) as [c|] eqn:F; [|exists w; repeat split; auto].
  destruct (len c =? 0) eqn:L; [exists w; repeat split; auto|].
  cbn zeta. eexists. split; [|split; [|split; [|split; [|f_equal]]]]; auto.
  - intros p Hp. simpl. unfold nupd. simpl. unfold supd. destruct (String.eqb_spec p (res_path (FileStorage 0 base) n)); auto. contradiction.
  - unfold mapped, file_content. simpl. rewrite F, Z.leb_refl. simpl. do 2 f_equal. unfold whole. f_equal.
    unfold len. rewrite Nat2Z.id. apply firstn_all.
Qed.

Lemma read_during_still b e base name expected w : read_during b e (fun _ => w) base name expected = fresh_read b e base name expected w.
Proof.
  rewrite fresh_read_eq. unfold read_during, read, mtry, mbind.
  destruct (read_resource_new base name (reader_world w)) as (w1 & F1 & Fl1 & Dr1 & M1 & ->); auto.
  assert (PE : forall k, fst (path_exists k (restart w)) = Ret (on_disk k w)) by reflexivity.
  set (st := FileStorage 0 base). rewrite PE. rewrite ?obind_ret.
  change (on_disk (res_key st name) (reader_world w)) with (on_disk (res_key st name) w).
  destruct (on_disk (res_key st name) w) eqn:D1; [|reflexivity]. cbn [negb].
  rewrite mmap_fresh. change (key_of (res_path st name)) with (res_key st name).
  change (w_files (reader_world w)) with (w_files w). change (is_dir (res_key st name) (reader_world w)) with (is_dir (res_key st name) w).
  destruct (w_files w (res_key st name)) as [c|] eqn:E1; [|reflexivity].
  destruct (len c =? 0) eqn:Z1; [reflexivity|]. rewrite ?obind_ret. cbn iota.
  destruct (read_resource_new base (schema_name name) w1) as (w2 & F2 & Fl2 & Dr2 & M2 & RR); auto.
  { rewrite M1; auto. intros X. apply (res_key_schema st name). exact (f_equal key_of X). }
  fold st in RR. rewrite RR. clear RR. rewrite PE. rewrite ?obind_ret.
  assert (OD : forall k, on_disk k w1 = on_disk k w /\ is_dir k w1 = is_dir k w).
  { intros k. unfold on_disk, is_dir. rewrite Fl1, Dr1. auto. }
  destruct (OD (res_key st (schema_name name))) as (-> & ->). rewrite Fl1. fold st.
  destruct (on_disk (res_key st (schema_name name)) w) eqn:D2; [|reflexivity]. cbn [negb].
  rewrite mmap_fresh. change (key_of (res_path st (schema_name name))) with (res_key st (schema_name name)).
  change (w_files (reader_world w)) with (w_files w).
  destruct (w_files w (res_key st (schema_name name))) as [s|] eqn:E2; [|reflexivity].
  destruct (len s =? 0) eqn:Z2; [reflexivity|]. rewrite ?obind_ret. cbn iota.
  change (sl_len (whole c)) with (len c). change (sl_len (whole s)) with (len s).
  pose proof (len_nonneg c). pose proof (len_nonneg s).
  rewrite (mapped_ok _ _ _ c E1) by lia. rewrite (mapped_ok _ _ _ s E2) by lia. rewrite ?obind_ret.
  unfold len. rewrite !Nat2Z.id, !firstn_all. reflexivity.
Qed.

(** * Opening a multivector *)
Lemma read_during_ok b e W base name expected sl :
  (forall c, w_files (W 4%nat) (res_key (FileStorage 0 base) name) = Some c -> stored_ok c) ->
  read_during b e W base name expected = Ret (Ok sl) ->
  let k := res_key (FileStorage 0 base) name in
  exists c1 c4, w_files (W 1%nat) k = Some c1 /\ w_files (W 4%nat) k = Some c4 /\
    len c1 = sl_len sl + 16 /\ 16 <= len c4 /\ header c4 = sl_len sl.
Proof.
  intros So H k. unfold read_during in H. set (st := FileStorage 0 base) in *.
  assert (PE : forall k w, fst (path_exists k (restart w)) = Ret (on_disk k w)) by reflexivity.
  rewrite PE in H. rewrite ?obind_ret in H. destruct (on_disk (res_key st name) (W 0%nat)); [|discriminate].
  cbn [negb] in H. rewrite mmap_fresh in H. change (key_of (res_path st name)) with k in H.
  destruct (w_files (W 1%nat) k) as [c1|] eqn:E1; [|discriminate].
  destruct (len c1 =? 0) eqn:Z1; [discriminate|]. rewrite ?obind_ret in H. rewrite PE in H. rewrite ?obind_ret in H.
  destruct (on_disk (res_key st (schema_name name)) (W 2%nat)); [|discriminate].
  cbn [negb] in H. rewrite mmap_fresh in H. destruct (w_files (W 3%nat) _) as [s3|] eqn:E3; [|discriminate].
  destruct (len s3 =? 0) eqn:Z3; [discriminate|]. rewrite ?obind_ret in H.
  change (sl_len (whole c1)) with (len c1) in H. change (sl_len (whole s3)) with (len s3) in H.
  change (res_key st name) with k in H. unfold mapped at 1 in H. unfold file_content in H.
  pose proof (len_nonneg c1) as L1.
  destruct (w_files (W 4%nat) k) as [c4|] eqn:E4.
  2:{ change (len []) with 0 in H. replace (len c1 <=? 0) with false in H by lia. discriminate. }
  destruct (len c1 <=? len c4) eqn:L4; [|discriminate]. rewrite obind_ret in H.
  unfold mapped, file_content in H.
  set (sc := match w_files (W 5%nat) _ with Some c => c | None => [] end) in H.
  destruct (len s3 <=? len sc) eqn:L5; [|discriminate]. rewrite obind_ret in H.
  assert (Sc := So c4 E4). destruct Sc as (Sb & Sl). pose proof (len_nonneg s3) as L3.
  set (c := firstn (Z.to_nat (len c1)) c4) in H. set (sc' := firstn (Z.to_nat (len s3)) sc) in H.
  assert (Lc : len c = len c1) by (apply len_firstn; lia).
  assert (Ls : len sc' = len s3) by (apply len_firstn; lia).
  replace (mkSlice c (len c1)) with (whole c) in H by (unfold whole; rewrite Lc; auto).
  replace (mkSlice sc' (len s3)) with (whole sc') in H by (unfold whole; rewrite Ls; auto).
  assert (Cok : stored_ok c) by (split; [apply bytes_ok_firstn; auto|lia]).
  destruct (check_resource_cases b e name expected c sc' Cok) as [(r & E & V & K)|(_ & _ & _ & E)]; rewrite E in H; [|discriminate].
  injection H as ->. destruct (K sl eq_refl) as (Sok & _). simpl in V. inversion V as [d pad Ec Lp Ut Es Er| | |]; subst d.
  assert (Ld : len (sl_bytes sl) = sl_len sl) by (apply len_sl_bytes; auto).
  assert (LL : len c = sl_len sl + 16) by (rewrite Ec, framed_len, Lp, Ld; lia).
  pose proof (len_nonneg (sl_bytes sl)). exists c1, c4. repeat (split; auto); try lia.
  rewrite <- Ld. unfold isize_max in Sl. rewrite <- (header_framed (sl_bytes sl) pad) by lia. rewrite <- Ec.
  unfold header, c. rewrite firstn_firstn. do 2 f_equal. unfold len in *. lia.
Qed.

(** The size field while it is being written. *)
Lemma stage_header_far D t s : len D < 2 ^ 64 -> (16 <= t)%nat -> (t <= length (zeros 8 ++ D ++ zeros 8))%nat -> (s <= 8)%nat ->
  let h := header (stage (zeros 8 ++ D ++ zeros 8) (le_bytes 8 (len D)) t s) in
  h = 0 \/ h = len D \/ h + 256 <= len D.
Proof.
  intros L Ht H8 Hs h. unfold h, header. rewrite (firstn8_stage D); [|right; auto|auto|auto|rewrite le_bytes_length; auto].
  rewrite firstn_app_exact by reflexivity. rewrite le_val_app.
  assert (Zs : le_val (skipn s (zeros 8)) = 0).
  { assert (Hz := le_val_app (firstn s (zeros 8)) (skipn s (zeros 8))).
    rewrite firstn_skipn, le_val_zeros in Hz.
    assert (0 <= le_val (firstn s (zeros 8))) by (apply le_val_nonneg, bytes_ok_firstn, bytes_ok_zeros).
    assert (0 <= le_val (skipn s (zeros 8))) by (apply le_val_nonneg, bytes_ok_skipn, bytes_ok_zeros).
    assert (0 < 256 ^ Z.of_nat (length (firstn s (zeros 8)))) by (apply Z.pow_pos_nonneg; lia). nia. }
  rewrite Zs, Z.mul_0_r, Z.add_0_r.
  set (p := firstn s (le_bytes 8 (len D))). set (q := skipn s (le_bytes 8 (len D))).
  assert (Hv : le_val p + 256 ^ Z.of_nat (length p) * le_val q = len D).
  { rewrite <- le_val_app. unfold p, q. rewrite firstn_skipn, le_val_bytes. apply Z.mod_small. pose proof (len_nonneg D). simpl. lia. }
  assert (0 <= le_val q) by (apply le_val_nonneg, bytes_ok_skipn, le_bytes_ok).
  assert (Lp : length p = s) by (unfold p; rewrite firstn_length, le_bytes_length; lia).
  destruct s as [|s]; [left; reflexivity|]. rewrite Lp in Hv. right.
  assert (256 <= 256 ^ Z.of_nat (S s)).
  { rewrite Nat2Z.inj_succ, Z.pow_succ_r by lia. assert (0 < 256 ^ Z.of_nat s) by (apply Z.pow_pos_nonneg; lia). lia. }
  destruct (Z.eq_dec (le_val q) 0) as [E|E]; [left; rewrite E in Hv; lia|right; nia].
Qed.

Lemma ended_data k L f d n D : ended k L (zeros 8 ++ d ++ zeros 8) (le_bytes 8 n) -> acts L f k = Some (resource_bytes D) -> d = D.
Proof.
  intros En Fd. rewrite (ended_final _ _ _ _ _ En) in Fd. apply some_inj in Fd.
  rewrite le_bytes_length, skipn_app_exact in Fd by reflexivity. unfold resource_bytes, framed in Fd.
  assert (E2 := f_equal (skipn 8) Fd). rewrite !skipn_app_exact in E2 by apply le_bytes_length.
  apply app_inv_tail in E2. auto.
Qed.

Lemma growing_final k A T f : growing k A T -> acts A f k = Some T.
Proof.
  intros (A1 & B & -> & HA & HB). rewrite acts_app. cbn [acts].
  apply (acts_appends k B T (act (Create k) (acts A1 f)) [] HB (kupd_same _ _ _)).
Qed.

Lemma timeline_stored cf D T h x c : timeline cf T h -> plan_of D T h -> data_ok D -> cf x = Some c -> stored_ok c.
Proof.
  intros (bd & t & s & M & B & C) P (Bd & Ld) E. rewrite C in E. destruct (bd x); [|discriminate]. apply some_inj in E. subst c.
  destruct (plan_len D T h P) as (LT & L8 & Lh). destruct (B x) as (U1 & U2 & U3 & _).
  change (firstn (s x) h ++ skipn (s x) (firstn (t x) T)) with (stage T h (t x) (s x)). split; [apply (plan_bytes D); auto|].
  unfold len in *. rewrite stage_length; auto. lia.
Qed.

Lemma index_before_data {A} b e (m : M A) w L o w0 id base name schema D I : let st := FileStorage id base in
  let kd := res_key st name in let ki := res_key st (index_name name) in
  logs m w L o w0 -> absent st name w -> absent st (index_name name) w ->
  data_ok D -> data_ok I -> sealed_log kd (res_key st (schema_name name)) schema L ->
  sealed_log ki (res_key st (schema_name (index_name name))) (index_schema schema) L -> index_last kd ki L ->
  w_files w0 kd = Some (resource_bytes D) -> w_files w0 ki = Some (resource_bytes I) ->
  forall tau, (forall i, not_after (tau i) (tau (S i))) ->
  let W i := world_at m w (tau i) in
  forall exi exd i d, read_during b e W base (index_name name) exi = Ret (Ok i) ->
    read_during b e (fun n => W (6 + n)%nat) base name exd = Ret (Ok d) ->
  sl_len i = 0 \/ sl_len d = len D \/ sl_len d = 0 /\ len D <= 8.
Proof.
  intros st kd ki Lg (A1 & A2) (A3 & A4) Dok Iok Sd Si IL Fd Fi tau Ht W exi exd i d Ri Rd.
  assert (Mono := schedule_mono tau Ht).
  assert (Fd' : acts L (w_files w) kd = Some (resource_bytes D)) by (rewrite <- (proj1 Lg); auto).
  assert (Fi' : acts L (w_files w) ki = Some (resource_bytes I)) by (rewrite <- (proj1 Lg); auto).
  assert (End := sealed_log_data _ _ _ L _ D Sd Fd'). assert (Eni := sealed_log_data _ _ _ L _ I Si Fi').
  assert (Td : timeline (fun x => w_files (world_at m w x) kd) (zeros 8 ++ D ++ zeros 8) (le_bytes 8 (len D))).
  { refine (timeline_logs _ w L _ w0 _ _ _ Lg (ended_timeline _ _ _ _ _ End A1 _)). rewrite le_bytes_length, app_length. simpl. lia. }
  assert (Ti : timeline (fun x => w_files (world_at m w x) ki) (zeros 8 ++ I ++ zeros 8) (le_bytes 8 (len I))).
  { refine (timeline_logs _ w L _ w0 _ _ _ Lg (ended_timeline _ _ _ _ _ Eni A3 _)). rewrite le_bytes_length, app_length. simpl. lia. }
  assert (Pd : plan_of D (zeros 8 ++ D ++ zeros 8) (le_bytes 8 (len D))) by (right; auto).
  assert (Pi : plan_of I (zeros 8 ++ I ++ zeros 8) (le_bytes 8 (len I))) by (right; auto).
  destruct (read_during_ok b e W base (index_name name) exi i) as (ci1 & ci4 & Ei1 & Ei4 & Li1 & Li4 & Hi); auto.
  { intros c Ec. apply (timeline_stored _ I _ _ (tau 4%nat) c Ti Pi Iok Ec). }
  destruct (read_during_ok b e (fun n => W (6 + n)%nat) base name exd d) as (cd1 & cd4 & Ed1 & Ed4 & Ld1 & Ld4 & Hd); auto.
  { intros c Ec. apply (timeline_stored _ D _ _ (tau 10%nat) c Td Pd Dok Ec). }
  destruct IL as (A0 & E & C & d0 & n0 & I0 & EL & SE & Gd & Gi & En0).
  assert (d0 = D) by (eapply ended_data; eauto). subst d0.
  destruct (Nat.lt_ge_cases (calls_done (tau 4%nat)) (length A0)) as [Lt|Ge].
  - (* the size of the index has not been written *)
    left. rewrite <- Hi. unfold W in Ei4. rewrite (world_at_logs m w L o w0 _ Lg), EL, upto_app_l in Ei4 by auto.
    destruct (growing_timeline ki A0 _ (w_files w) Gi A3) as (bd & t & s & _ & B & Ct). specialize (Ct (tau 4%nat)). cbv beta in Ct.
    change (res_key (FileStorage 0 base) (index_name name)) with ki in Ei4. rewrite Ct in Ei4. destruct (bd (tau 4%nat)); [|discriminate].
    apply some_inj in Ei4. destruct (B (tau 4%nat)) as (_ & X & _). simpl in X. replace (s (tau 4%nat)) with 0%nat in Ei4 by lia.
    rewrite firstn_O, app_nil_l, skipn_O in Ei4. subst ci4. unfold header. rewrite firstn_firstn.
    assert (8 <= t (tau 4%nat))%nat. { unfold len in Li4. rewrite firstn_length in Li4. lia. }
    rewrite Nat.min_l by auto. rewrite firstn_app_exact by reflexivity. reflexivity.
  - (* the data are there *)
    destruct Td as (bd & t & s & M & B & Ct).
    assert (Lst : forall x, length (stage (zeros 8 ++ D ++ zeros 8) (le_bytes 8 (len D)) (t x) (s x)) = t x).
    { intros x. destruct (B x) as (U1 & U2 & U3 & _). apply stage_length; auto. rewrite le_bytes_length, app_length. simpl. lia. }
    set (x0 := At (length A0) 0).
    assert (E0 : w_files (world_at m w x0) kd = Some (zeros 8 ++ D)).
    { rewrite (world_at_logs m w L o w0 _ Lg), EL. simpl calls_done. simpl bytes_done. rewrite upto_app_r by lia. rewrite Nat.sub_diag.
      change (E :: C) with ([E] ++ C). rewrite upto_app_l by (simpl; lia). rewrite upto_away by (constructor; [exact SE|constructor]).
      apply growing_final. auto. }
    assert (T0 : t x0 = (8 + length D)%nat).
    { specialize (Ct x0). cbv beta in Ct. rewrite E0 in Ct. destruct (bd x0); [|discriminate]. apply some_inj in Ct.
      specialize (Lst x0). unfold stage in Lst. rewrite <- Ct in Lst. rewrite app_length in Lst. simpl in Lst. lia. }
    assert (N7 : not_after x0 (tau 7%nat)).
    { assert (X := Mono 4%nat 7%nat ltac:(lia)). unfold not_after in *. simpl. lia. }
    destruct (M _ _ N7) as (T7 & _ & _).
    unfold W in Ed1, Ed4. cbn [Nat.add] in Ed1, Ed4. change (res_key (FileStorage 0 base) name) with kd in Ed1, Ed4.
    assert (C7 := Ct (tau 7%nat)). cbv beta in C7. rewrite C7 in Ed1. destruct (bd (tau 7%nat)); [|discriminate]. apply some_inj in Ed1.
    assert (C10 := Ct (tau 10%nat)). cbv beta in C10. rewrite C10 in Ed4. destruct (bd (tau 10%nat)); [|discriminate]. apply some_inj in Ed4.
    assert (X7 := Lst (tau 7%nat)). unfold stage in X7. rewrite Ed1 in X7.
    assert (X10 := Lst (tau 10%nat)). unfold stage in X10. rewrite Ed4 in X10.
    destruct (B (tau 10%nat)) as (U1 & U2 & _). rewrite le_bytes_length in U2. destruct Dok as (Db & Dl). unfold isize_max in Dl.
    destruct (stage_header_far D (t (tau 10%nat)) (s (tau 10%nat))) as [H|[H|H]]; auto; try (unfold len in *; lia);
      unfold stage in H; rewrite Ed4, Hd in H.
    + right. right. split; auto. unfold len in *. lia.
    + auto.
    + exfalso. unfold len in *. lia.
Qed.

Lemma mv_open_during b e lim size bits ts id base name schema ops w : let st := FileStorage id base in
  w_faults w = [] -> wf_struct (index_struct size bits) -> wf_vdesc ts -> valid_name name -> mv_schema_ok st schema -> maps_ok w ->
  mv_fresh st name w -> mv_unblocked st name w -> absent st name w -> absent st (index_name name) w ->
  only_mgrows ops -> Forall (mv_op_ok st name ts) ops -> mv_fits size bits ts ops ->
  exists I D, (forall i d, slice_ok i -> slice_ok d -> sl_bytes i = I -> sl_bytes d = D ->
                 mav_shows ts size bits (mkMav i d) (buckets ts (mv_all ops))) /\
  forall tau, (forall i, not_after (tau i) (tau (S i))) ->
  let W i := world_at (mv_session b e lim size bits ts st name schema ops) w (tau i) in
  forall b' e', exists r, open_multi_during b' e' W base name schema = Ret r /\
    forall i d, r = Ok (i, d) ->
      slice_ok i /\ slice_ok d /\
      (sl_len i = 0 \/ sl_len d = 0 /\ len D <= 8 \/
       sl_bytes d = D /\ (exists q, I = sl_bytes i ++ q) /\ (bytes_done (tau 4%nat) = 0%nat -> sl_bytes i = I)).
Proof.
  intros st Hf Hwi Hwf Hn Sok MO F Un Ab Abi Og Ops Fit.
  destruct (mv_session_log b e lim size bits ts id base name schema ops w Hf Hwi Hwf Hn Sok MO F Un Og Ops Fit)
    as (iv & d & L & o & w0 & Sh & D2 & D1 & Lg & Q1 & Q2 & Q3 & F1 & F2).
  exists (sl_bytes iv), (sl_bytes d). split.
  { intros i' d' Si Sd Ei Ed. destruct Sh as ((S1 & S2) & S3 & S4). unfold mav_shows. simpl in *.
    assert (EO : offsets size bits (mkMav i' d') = offsets size bits (mkMav iv d)) by (unfold offsets; simpl; rewrite Ei; auto).
    assert (EL : sl_len d' = sl_len d) by (rewrite <- (len_sl_bytes d') by auto; rewrite <- (len_sl_bytes d) by auto; rewrite Ed; auto).
    rewrite EO, EL, Ed. split; [split; auto|]. auto. }
  intros tau Ht W b' e'. unfold open_multi_during.
  destruct (sealed_during (mv_session b e lim size bits ts st name schema ops) id base (index_name name) (index_schema schema) (sl_bytes iv) w L _ w0 Lg Abi D2 Q2 F2 tau Ht b' e' (index_schema schema)) as (ri & Ei & Ki).
  fold W in Ei, Ki. rewrite Ei, obind_ret. destruct ri as [i|x]; [|eexists; split; [reflexivity|discriminate]].
  assert (Ht6 : forall n, not_after (tau (6 + n)%nat) (tau (6 + S n)%nat)).
  { intros n. replace (6 + S n)%nat with (S (6 + n)) by lia. apply Ht. }
  destruct (sealed_during (mv_session b e lim size bits ts st name schema ops) id base name schema (sl_bytes d) w L _ w0 Lg Ab D1 Q1 F1 (fun n => tau (6 + n)%nat) Ht6 b' e' schema) as (rd & Ed & Kd).
  change (fun i : nat => world_at (mv_session b e lim size bits ts st name schema ops) w (tau (6 + i)%nat)) with (fun n => W (6 + n)%nat) in Ed, Kd.
  rewrite Ed, obind_ret. destruct rd as [d'|x]; [|eexists; split; [reflexivity|discriminate]].
  eexists. split; [reflexivity|]. intros i0 d0 H. injection H as <- <-.
  destruct (Ki i eq_refl) as (_ & Si & Li & Bi & Ti & _). destruct (Kd d' eq_refl) as (_ & Sd & Ld & Bd & Td & _).
  split; auto. split; auto.
  destruct (index_before_data b' e' (mv_session b e lim size bits ts st name schema ops) w L o w0 id base name schema (sl_bytes d) (sl_bytes iv) Lg Ab Abi D1 D2 Q1 Q2 Q3 F1 F2 tau Ht (index_schema schema) schema i d' Ei Ed) as [X|[X|X]]; auto.
  destruct (Z.eq_dec (sl_len i) 0) as [Z0|NZ]; auto.
  right. right. split; [|split].
  - rewrite Bd, X. unfold len. rewrite Nat2Z.id. apply firstn_all.
  - exists (skipn (Z.to_nat (sl_len i)) (sl_bytes iv)). transitivity (firstn (Z.to_nat (sl_len i)) (sl_bytes iv) ++ skipn (Z.to_nat (sl_len i)) (sl_bytes iv)); [symmetry; apply firstn_skipn|]. f_equal. auto.
  - intros Z0. destruct Ti as [T|T]; auto. congruence.
Qed.

(** Proofs about streams and storages. *)
From Verif Require Import Base BaseFacts Codec CodecSpec CodecFacts.
From Verif Require Import Storage PathFacts StorageSpec.
Local Open Scope list_scope.
Local Open Scope Z_scope.

(** * touches *)
Lemma touches_refl P w : touches P w w.
Proof. repeat split; auto. Qed.

Lemma touches_trans P w1 w2 w3 : touches P w1 w2 -> touches P w2 w3 -> touches P w1 w3.
Proof.
  intros (A1 & A2 & A3 & A4 & A5) (B1 & B2 & B3 & B4 & B5). repeat split.
  - destruct (A1 id k H), (B1 id k H). congruence.
  - destruct (A1 id k H), (B1 id k H). congruence.
  - intros. rewrite B2, A2; auto.
  - intros. rewrite B3, A3; auto.
  - congruence.
  - auto.
Qed.

Lemma touches_mono (P Q : cell -> Prop) w w' : (forall c, P c -> Q c) -> touches P w w' -> touches Q w w'.
Proof.
  intros H (A1 & A2 & A3 & A4 & A5).
  split; [intros id k N; apply A1; auto|].
  split; [intros k N; apply A2; auto|].
  split; [intros id p N; apply A3; auto|]. auto.
Qed.

Lemma touches_faults P l w : touches P w (set_faults l w).
Proof. repeat split; auto. Qed.

(** Steps that do not concern any cell: only pending faults and directories. *)
Definition nothing (c : cell) : Prop := False.
Lemma touches_nothing P w w' : touches nothing w w' -> touches P w w'.
Proof. apply touches_mono. intros c []. Qed.

Lemma finds_touches P st w w' n x : touches P w w' -> ~ P (cell_at st n) ->
  finds st w n x -> finds st w' n x.
Proof.
  intros (A1 & A2 & A3 & A4 & A5) N. destruct st as [id base|id base]; simpl in *.
  - destruct (A1 id (res_key (MemStorage id base) n) N) as [E1 E2]. rewrite E1, E2. auto.
  - rewrite A3 by auto. rewrite A2 by auto. auto.
Qed.

Lemma bytes_at_touches P c w w' : touches P w w' -> ~ P c -> bytes_at c w' = bytes_at c w.
Proof.
  intros (A1 & A2 & _) N. destruct c as [id k|k]; simpl.
  - destruct (A1 id k N) as [-> _]. auto.
  - auto.
Qed.

Lemma touches_dirs P w w' k : touches P w w' -> is_dir k w = true -> is_dir k w' = true.
Proof.
  intros (_ & _ & _ & _ & D). unfold is_dir. rewrite !orb_true_iff. intros [H|H]; auto.
Qed.

(** Caches of readers unchanged. *)
Definition same_caches (w w' : world) : Prop :=
  w_resources w' = w_resources w /\ w_maps w' = w_maps w.

Lemma same_caches_refl w : same_caches w w.
Proof. split; auto. Qed.
Lemma same_caches_trans w1 w2 w3 : same_caches w1 w2 -> same_caches w2 w3 -> same_caches w1 w3.
Proof. intros [] []. split; congruence. Qed.

(** Once no fault is pending, none is pending later. *)
Definition calm (w w' : world) : Prop := w_faults w = [] -> w_faults w' = [].
Lemma calm_refl w : calm w w.
Proof. congruence. Qed.
Lemma calm_trans w1 w2 w3 : calm w1 w2 -> calm w2 w3 -> calm w1 w3.
Proof. unfold calm. auto. Qed.

(** * Steps of the write path: cells in [P] change, caches do not. *)
Definition step (P : cell -> Prop) (w w' : world) : Prop :=
  touches P w w' /\ same_caches w w' /\ calm w w'.
Lemma step_refl P w : step P w w.
Proof. split; [apply touches_refl|split; [apply same_caches_refl|apply calm_refl]]. Qed.
Lemma step_trans P w1 w2 w3 : step P w1 w2 -> step P w2 w3 -> step P w1 w3.
Proof.
  intros (A & B & C) (A' & B' & C').
  split; [eapply touches_trans|split; [eapply same_caches_trans|eapply calm_trans]]; eauto.
Qed.
Lemma step_mono (P Q : cell -> Prop) w w' : (forall c, P c -> Q c) -> step P w w' -> step Q w w'.
Proof. intros H (A & B). split; auto. eapply touches_mono; eauto. Qed.

Lemma next_fault_cases w f w1 : next_fault w = (f, w1) ->
  w1 = set_faults (tl (w_faults w)) w /\ (f <> FOk -> w_faults w <> []).
Proof.
  unfold next_fault. destruct (w_faults w) eqn:E; intros [= <- <-].
  - split; auto. destruct w; simpl in *. subst. auto.
  - split; auto. congruence.
Qed.

Lemma step_fault P w : step P w (set_faults (tl (w_faults w)) w).
Proof.
  split; [apply touches_faults|]. split; [split; auto|]. unfold calm. simpl. intros ->. auto.
Qed.

(** * Streams *)
Definition cell_of (s : stream) : cell :=
  match s with SMem id k => CMem id k | SFile k _ => CFile k end.
(** The cell of [s] holds [c] and the next write goes to position [p]. *)
Definition at_pos (s : stream) (w : world) (c : list Z) (p : Z) : Prop :=
  match s with
  | SMem id k => w_streams w id k = Some (c, p)
  | SFile k q => w_files w k = Some c /\ q = p
  end.
(** Operations of [s] can fail in [w]. *)
Definition can_fail (s : stream) (w : world) : Prop :=
  match s with SMem _ _ => False | SFile _ _ => w_faults w <> [] end.

Lemma at_pos_bytes s w c p : at_pos s w c p -> bytes_at (cell_of s) w = Some c.
Proof. destruct s; simpl; [intros ->|intros []]; auto. Qed.

Lemma at_pos_touches P s w w' c p : touches P w w' -> ~ P (cell_of s) -> at_pos s w c p -> at_pos s w' c p.
Proof.
  intros (A1 & A2 & _) N. destruct s; simpl in *.
  - destruct (A1 id k N) as [-> _]. auto.
  - rewrite A2; auto.
Qed.

Lemma can_fail_cell s s' w : cell_of s' = cell_of s -> can_fail s' w -> can_fail s w.
Proof. destruct s, s'; simpl; auto; discriminate. Qed.

Lemma can_fail_calm s w w' : calm w w' -> can_fail s w' -> can_fail s w.
Proof. destruct s; simpl; auto. Qed.

Lemma splice_nil p c : 0 <= p <= len c -> splice p [] c = c.
Proof.
  intros. unfold splice. unfold zeros. replace (Z.to_nat (p - len c)) with 0%nat by lia. simpl.
  rewrite Nat.add_0_r. apply firstn_skipn.
Qed.

Lemma splice_end d c : splice (len c) d c = c ++ d.
Proof.
  unfold splice, zeros. replace (Z.to_nat (len c - len c)) with 0%nat by lia. simpl.
  unfold len. rewrite Nat2Z.id, firstn_all, skipn_all2 by lia. rewrite app_nil_r. auto.
Qed.

Lemma splice_start d c : splice 0 d c = d ++ skipn (length d) c.
Proof.
  unfold splice, zeros. replace (Z.to_nat (0 - len c)) with 0%nat by (unfold len; lia).
  simpl. auto.
Qed.

(** Steps that in addition leave the directories as they are. *)
Definition wstep (P : cell -> Prop) (w w' : world) : Prop := step P w w' /\ w_dirs w' = w_dirs w.
Lemma wstep_refl P w : wstep P w w.
Proof. split; auto. apply step_refl. Qed.
Lemma wstep_trans P w1 w2 w3 : wstep P w1 w2 -> wstep P w2 w3 -> wstep P w1 w3.
Proof. intros [A B] [A' B']. split; [eapply step_trans; eauto|congruence]. Qed.
Lemma wstep_fault P w : wstep P w (set_faults (tl (w_faults w)) w).
Proof. split; auto. apply step_fault. Qed.

Lemma wstep_file_write k p d w : wstep (eq (CFile k)) w (file_write k p d w).
Proof.
  split; auto. split.
  - repeat split; simpl; auto. intros x N. apply kupd_other. congruence.
  - split; [split; auto|]. intros H. auto.
Qed.

(** The general specification of a stream operation that writes [d] at the
    current position. *)
Definition puts (m : stream -> M (result unit io_kind * stream)) (d : list Z) : Prop :=
  forall s w c p o w', at_pos s w c p -> 0 <= p <= len c -> m s w = (o, w') ->
  wstep (eq (cell_of s)) w w' /\
  ((exists s', o = Ret (Ok tt, s') /\ cell_of s' = cell_of s /\
      at_pos s' w' (splice p d c) (p + len d)) \/
   (can_fail s w /\ exists d1 d2, d = d1 ++ d2 /\
      ((exists k s', o = Ret (Er k, s') /\ cell_of s' = cell_of s /\
          at_pos s' w' (splice p d1 c) (p + len d1)) \/
       (o = Crash /\ bytes_at (cell_of s) w' = Some (splice p d1 c))))).

Lemma write_all_puts d : puts (fun s => write_all s d) d.
Proof.
  intros s w c p o w' A Hp R. destruct s as [id k|k q]; simpl in *.
  - rewrite A in R. injection R as <- <-. split.
    + split; auto. split; [|split; [split; auto|intros H; auto]]. repeat split; simpl; auto.
      destruct (Nat.eq_dec id0 id) as [->|N].
      * rewrite nupd_same. apply kupd_other. congruence.
      * rewrite nupd_other; auto.
    + left. eexists. split; [reflexivity|]. split; auto. simpl. rewrite nupd_same, kupd_same. auto.
  - destruct A as [A ->]. destruct d as [|x d].
    + injection R as <- <-. split; [apply wstep_refl|]. left. eexists. split; [reflexivity|].
      split; auto. rewrite splice_nil by auto. simpl. split; auto. unfold len. simpl. lia.
    + destruct (next_fault w) as [f w1] eqn:F. destruct (next_fault_cases _ _ _ F) as [-> Hf].
      assert (Hc : file_content k (set_faults (tl (w_faults w)) w) = c)
        by (unfold file_content; simpl; rewrite A; auto).
      destruct f as [|kd|n kd|n]; injection R as <- <-.
      * split; [eapply wstep_trans; [apply wstep_fault|apply wstep_file_write]|].
        left. eexists. split; [reflexivity|]. split; auto. simpl. rewrite kupd_same, Hc. auto.
      * split; [apply wstep_fault|]. right. split; [apply Hf; congruence|].
        exists [], (x :: d). split; auto. left. do 2 eexists. split; [reflexivity|].
        split; auto. simpl. rewrite splice_nil by auto. split; auto. unfold len. simpl. lia.
      * split; [eapply wstep_trans; [apply wstep_fault|apply wstep_file_write]|].
        right. split; [apply Hf; congruence|]. exists (firstn n (x :: d)), (skipn n (x :: d)).
        split; [symmetry; apply firstn_skipn|]. left. do 2 eexists. split; [reflexivity|].
        split; auto. simpl. rewrite kupd_same, Hc. auto.
      * split; [eapply wstep_trans; [apply wstep_fault|apply wstep_file_write]|].
        right. split; [apply Hf; congruence|]. exists (firstn n (x :: d)), (skipn n (x :: d)).
        split; [symmetry; apply firstn_skipn|]. right. split; auto. simpl.
        rewrite kupd_same, Hc. auto.
Qed.

Lemma write_size_bytes b e v : write_bytes b e U64 v (zeros 8) 0 64 = Ret (le_bytes 8 v).
Proof.
  assert (L0 : len (zeros 8) = 8) by reflexivity.
  destruct (write_bits b e U64 v (zeros 8) 0 64) as (m' & E & B & L & H).
  - apply bytes_ok_zeros.
  - split; lia.
  - left. lia.
  - lia.
  - rewrite E. f_equal. apply bytes_ext; auto.
    + apply le_bytes_ok.
    + intros i Hi. rewrite L, L0 in Hi. rewrite H by lia. rewrite le_bytes_bit by lia.
      unfold written_bit. rewrite Z.sub_0_r.
      replace ((0 <=? i) && (i <? 0 + 64)) with true by lia.
      replace (i <? 8 * Z.of_nat 8) with true by lia. auto.
Qed.

Lemma write_size_puts b e v : puts (write_size b e v) (le_bytes 8 v).
Proof.
  intros s w c p o w' A Hp R. unfold write_size, mbind, lift in R. rewrite write_size_bytes in R.
  exact (write_all_puts _ s w c p o w' A Hp R).
Qed.

Lemma write_padding_puts : puts write_padding (zeros 8).
Proof. exact (write_all_puts (zeros 8)). Qed.

(** Appending at the end. *)
Lemma puts_end m d s w c o w' : puts m d -> at_pos s w c (len c) -> m s w = (o, w') ->
  wstep (eq (cell_of s)) w w' /\
  ((exists s', o = Ret (Ok tt, s') /\ cell_of s' = cell_of s /\ at_pos s' w' (c ++ d) (len (c ++ d))) \/
   (can_fail s w /\ exists d1 d2, d = d1 ++ d2 /\
      ((exists k s', o = Ret (Er k, s') /\ cell_of s' = cell_of s /\
          at_pos s' w' (c ++ d1) (len (c ++ d1))) \/
       (o = Crash /\ bytes_at (cell_of s) w' = Some (c ++ d1))))).
Proof.
  intros Hm A R. pose proof (len_nonneg c).
  destruct (Hm s w c (len c) o w' A ltac:(lia) R) as (S1 & [(s' & E & C & A')|(F & d1 & d2 & E & X)]);
    split; auto.
  - left. exists s'. rewrite splice_end in A'. rewrite len_app. auto.
  - right. split; auto. exists d1, d2. split; auto. rewrite splice_end in X. rewrite len_app. exact X.
Qed.

(** A failed or interrupted operation that appended only a part [d1] of [d]. *)
Definition partly {A} (s : stream) (c d : list Z) (o : outcome (result A io_kind)) (w w' : world) : Prop :=
  can_fail s w /\ ((exists k, o = Ret (Er k)) \/ o = Crash) /\
  exists d1 d2, d = d1 ++ d2 /\ bytes_at (cell_of s) w' = Some (c ++ d1).

(** One step of a chain of appends. *)
Lemma stry_puts {B} m d s w c (f : stream -> M (result B io_kind)) o w' :
  puts m d -> at_pos s w c (len c) -> stry (m s) f w = (o, w') ->
  (exists s' w1, wstep (eq (cell_of s)) w w1 /\ cell_of s' = cell_of s /\
     at_pos s' w1 (c ++ d) (len (c ++ d)) /\ f s' w1 = (o, w')) \/
  (wstep (eq (cell_of s)) w w' /\ partly s c d o w w').
Proof.
  intros Hm A R. unfold stry, mbind in R. destruct (m s w) as [o1 w1] eqn:E.
  destruct (puts_end m d s w c o1 w1 Hm A E) as (S1 & [(s' & -> & C & A')|(F & d1 & d2 & Ed & X)]).
  - left. exists s', w1. auto.
  - right. destruct X as [(k & s' & -> & C & A')|(-> & Bt)].
    + injection R as <- <-. split; auto. split; auto. split; [left; eauto|]. exists d1, d2.
      split; auto. rewrite <- C. eapply at_pos_bytes; eauto.
    + injection R as <- <-. split; auto. split; auto. split; [auto|]. exists d1, d2. auto.
Qed.

Lemma partly_more {A} s c d d' (o : outcome (result A io_kind)) w w1 w' s' :
  cell_of s' = cell_of s -> calm w w1 ->
  partly s' (c ++ d) d' o w1 w' -> partly s c (d ++ d') o w w'.
Proof.
  intros C K (F & O & d1 & d2 & E & Bt). split; [|split; auto].
  - apply (can_fail_cell s s'); auto. eapply can_fail_calm; eauto.
  - exists (d ++ d1), d2. rewrite E, <- !app_assoc, C in *. split; auto.
Qed.

Lemma partly_less {A} s c d d' (o : outcome (result A io_kind)) w w' :
  partly s c d o w w' -> partly s c (d ++ d') o w w'.
Proof.
  intros (F & O & d1 & d2 & -> & Bt). split; auto. split; auto.
  exists d1, (d2 ++ d'). rewrite app_assoc. auto.
Qed.

Lemma write_to_stream_cases b e d s w c o w' :
  at_pos s w c (len c) -> write_to_stream b e d s w = (o, w') ->
  wstep (eq (cell_of s)) w w' /\
  ((o = Ret (Ok tt) /\ bytes_at (cell_of s) w' = Some (c ++ resource_bytes d) /\
    exists s', cell_of s' = cell_of s /\ at_pos s' w' (c ++ resource_bytes d) (len (c ++ resource_bytes d))) \/
   partly s c (resource_bytes d) o w w').
Proof.
  intros A R. unfold write_to_stream in R. unfold resource_bytes, framed.
  apply (stry_puts _ _ s w c _ o w' (write_size_puts b e (len d)) A) in R.
  destruct R as [(s1 & w1 & S1 & C1 & A1 & R)|(S1 & X)]; [|split; auto; right; apply partly_less; auto].
  rewrite <- C1 in S1.
  apply (stry_puts _ _ s1 w1 _ _ o w' (write_all_puts d) A1) in R.
  destruct R as [(s2 & w2 & S2 & C2 & A2 & R)|(S2 & X)].
  2:{ rewrite C1 in *. split; [eapply wstep_trans; eauto|]. right.
      eapply partly_more; [exact C1|apply (proj1 S1)|]. apply partly_less; auto. }
  apply (stry_puts _ _ s2 w2 _ _ o w' write_padding_puts A2) in R.
  rewrite <- C2 in S1, S2.
  destruct R as [(s3 & w3 & S3 & C3 & A3 & R)|(S3 & X)].
  - injection R as <- <-. rewrite <- C1, <- C2. split; [eapply wstep_trans; [eapply wstep_trans|]; eauto|].
    left. split; auto. rewrite <- !app_assoc in A3. rewrite <- C3. split; [eapply at_pos_bytes; eauto|].
    exists s3. auto.
  - rewrite <- C1, <- C2. split; [eapply wstep_trans; [eapply wstep_trans|]; eauto|]. right.
    eapply partly_more; [exact C1|apply (proj1 S1)|]. eapply partly_more; [exact C2|apply (proj1 S2)|]. auto.
Qed.

Lemma write_schema_cases d s w c o w' :
  at_pos s w c (len c) -> write_schema d s w = (o, w') ->
  wstep (eq (cell_of s)) w w' /\
  ((o = Ret (Ok tt) /\ bytes_at (cell_of s) w' = Some (c ++ d)) \/ partly s c d o w w').
Proof.
  intros A R. unfold write_schema in R.
  apply (stry_puts _ _ s w c _ o w' (write_all_puts d) A) in R.
  destruct R as [(s1 & w1 & S1 & C1 & A1 & R)|(S1 & X)]; [|auto].
  injection R as <- <-. split; auto. left. split; auto. rewrite <- C1. eapply at_pos_bytes; eauto.
Qed.

(** * Creating streams *)
(** What the cell of a resource holds right after its stream was created. *)
Definition start (st : storage) (name : string) (w : world) : list Z :=
  match st with
  | MemStorage id _ => match w_streams w id (res_key st name) with Some (c, _) => c | None => [] end
  | FileStorage _ _ => []
  end.
(** The cursor of an existing memory stream is at its end. *)
Definition at_end (st : storage) (name : string) (w : world) : Prop :=
  match st with
  | MemStorage id _ => match w_streams w id (res_key st name) with Some (c, p) => p = len c | None => True end
  | FileStorage _ _ => True
  end.

Lemma syscall_cases {A} (act : M (result A io_kind)) w o w' : syscall act w = (o, w') ->
  exists w1, step nothing w w1 /\ 
    (act w1 = (o, w') \/
     (w_faults w <> [] /\ w' = w1 /\ ((exists k, o = Ret (Er k)) \/ o = Crash))) /\
    w_files w1 = w_files w /\ w_dirs w1 = w_dirs w /\ (w_faults w = [] -> w1 = w).
Proof.
  unfold syscall. destruct (next_fault w) as [f w1] eqn:F.
  destruct (next_fault_cases _ _ _ F) as [-> Hf]. intros R.
  exists (set_faults (tl (w_faults w)) w). split; [apply step_fault|].
  split; [|simpl; split; auto; split; auto; intros E; unfold next_fault in F; rewrite E in F; congruence].
  destruct f; [left; auto|right; injection R as <- <-; split; [apply Hf; congruence|]; eauto ..].
Qed.

Lemma step_dirs P f w : (forall k, w_dirs w k = true -> f k = true) -> step P w (set_dirs f w).
Proof.
  intros H. split; [|split; [split; auto|intros E; auto]]. repeat split; auto.
Qed.

Lemma is_prefix_of_refl k : is_prefix_of k k = true.
Proof.
  unfold is_prefix_of. rewrite eqb_reflx. simpl. rewrite firstn_all. apply comps_eqb_eq. auto.
Qed.


Lemma key_of_full base : (fst (key_of base), firstn (length (snd (key_of base))) (snd (key_of base))) = key_of base.
Proof. rewrite firstn_all. destruct (key_of base); auto. Qed.


Lemma path_exists_cases k w o w' : path_exists k w = (o, w') ->
  step nothing w w' /\ w_files w' = w_files w /\ w_dirs w' = w_dirs w /\
  ((exists x, o = Ret x) \/ (o = Crash /\ w_faults w <> [])) /\
  (w_faults w = [] -> o = Ret (on_disk k w)) /\
  (o = Ret true -> on_disk k w = true).
Proof.
  intros R. unfold path_exists, mbind in R. destruct (syscall _ w) as [o1 w1] eqn:E.
  apply syscall_cases in E. destruct E as (w2 & S & X & F & D & N).
  assert (Hk : on_disk k w2 = on_disk k w) by (unfold on_disk; rewrite F, D; auto).
  destruct X as [X|(Hf & -> & X)].
  - injection X as <- <-. injection R as <- <-.
    refine (conj S (conj F (conj D (conj _ (conj _ _))))); eauto; try congruence.
  - destruct X as [(kd & ->)| ->]; injection R as <- <-;
      refine (conj S (conj F (conj D (conj _ (conj _ _))))); eauto; congruence.
Qed.

(** If it fails, some of the directories may have been made. *)
Definition some_dirs (k : key) (w w' : world) : Prop :=
  (forall x, w_dirs w x = true -> w_dirs w' x = true) /\
  (forall x, w_dirs w' x = true -> w_dirs w x = true \/ is_prefix_of x k = true) /\
  (w_dirs w' = w_dirs w \/ file_on_path k w = false).
Lemma is_prefix_firstn x k n : is_prefix_of x (fst k, firstn n (snd k)) = true -> is_prefix_of x k = true.
Proof.
  unfold is_prefix_of. cbn [fst snd]. destruct (Bool.eqb (fst x) (fst k)); [|auto]. cbn [andb]. rewrite !comps_eqb_eq, firstn_firstn.
  intros E. assert (L := f_equal (@List.length string) E). rewrite firstn_length in L. rewrite E at 1. f_equal. lia.
Qed.
Lemma make_dirs_some k n w w1 : w_dirs w1 = w_dirs w -> w_files w1 = w_files w ->
  some_dirs k w (if file_on_path k w1 then w1 else make_dirs k n w1).
Proof.
  intros D F. assert (P : file_on_path k w1 = file_on_path k w) by (unfold file_on_path; rewrite F; reflexivity). unfold some_dirs. rewrite <- P, <- D.
  destruct (file_on_path k w1); [auto 6|]. cbn. split; [intros x ->; reflexivity|]. split; [|auto]. intros x H. apply orb_prop in H.
  destruct H as [H|H]; [auto|right; exact (is_prefix_firstn x k n H)].
Qed.
Lemma create_dir_all_cases k w o w' : create_dir_all k w = (o, w') ->
  step nothing w w' /\ w_files w' = w_files w /\
  ((o = Ret (Ok tt) /\ is_dir k w' = true /\ 
      w_dirs w' = fun x => w_dirs w x || is_prefix_of x k) \/
   (((exists kd, o = Ret (Er kd)) \/ o = Crash) /\ some_dirs k w w' /\
     (w_faults w = [] -> (forall n, w_files w (fst k, firstn n (snd k)) = None) -> False))).
Proof.
  intros R. unfold create_dir_all in R. destruct (next_fault w) as [f w1] eqn:F. destruct (next_fault_cases _ _ _ F) as [-> Hf].
  assert (S : step nothing w (set_faults (tl (w_faults w)) w)) by apply step_fault.
  assert (Sm : forall n, step nothing w (if file_on_path k (set_faults (tl (w_faults w)) w) then set_faults (tl (w_faults w)) w else make_dirs k n (set_faults (tl (w_faults w)) w))).
  { intros n. destruct (file_on_path _ _); [exact S|]. eapply step_trans; [exact S|apply step_dirs; intros x Hx; cbn in *; rewrite Hx; reflexivity]. }
  assert (Fm : forall n, w_files (if file_on_path k (set_faults (tl (w_faults w)) w) then set_faults (tl (w_faults w)) w else make_dirs k n (set_faults (tl (w_faults w)) w)) = w_files w)
    by (intros n; destruct (file_on_path _ _); reflexivity).
  destruct f.
  - destruct (file_on_path k (set_faults (tl (w_faults w)) w)) eqn:E; injection R as <- <-.
    + split; [exact S|]. split; [reflexivity|]. right. split; [eauto|]. split; [repeat split; auto|]. intros _ H.
      unfold file_on_path in E. apply existsb_exists in E. destruct E as (n & _ & E). cbn [w_files set_faults] in E. rewrite H in E. discriminate.
    + split; [eapply step_trans; [exact S|apply step_dirs; intros x Hx; cbn in *; rewrite Hx; reflexivity]|]. split; [reflexivity|]. left.
      split; auto. split; [unfold is_dir; simpl; rewrite is_prefix_of_refl, orb_true_r; auto|]. reflexivity.
  - injection R as <- <-. split; [exact S|]. split; [reflexivity|]. right. split; [eauto|]. split; [repeat split; auto|]. intros E. exfalso. apply Hf; congruence.
  - injection R as <- <-. split; [apply Sm|]. split; [apply Fm|]. right. split; [eauto|]. split; [apply make_dirs_some; reflexivity|].
    intros E. exfalso. apply Hf; congruence.
  - injection R as <- <-. split; [apply Sm|]. split; [apply Fm|]. right. split; [eauto|]. split; [apply make_dirs_some; reflexivity|].
    intros E. exfalso. apply Hf; congruence.
Qed.

Lemma file_create_cases k w o w' : file_create k w = (o, w') ->
  exists w1, step nothing w w1 /\ w_files w1 = w_files w /\ w_dirs w1 = w_dirs w /\
  ((o = Ret (Ok (SFile k 0)) /\ is_dir k w = false /\ is_dir (parent k) w = true /\
      w' = set_files (kupd k (Some []) (w_files w1)) w1) \/
   (((exists kd, o = Ret (Er kd)) \/ o = Crash) /\ w' = w1 /\
     (w_faults w = [] -> is_dir k w = false -> is_dir (parent k) w = true -> False))).
Proof.
  intros R. unfold file_create in R. apply syscall_cases in R.
  destruct R as (w1 & S & X & F & D & N). exists w1. split; auto. split; auto. split; auto.
  assert (HD : forall x, is_dir x w1 = is_dir x w) by (intros; unfold is_dir; rewrite D; auto).
  destruct X as [X|(Hf & -> & X)].
  - rewrite !HD in X. destruct (is_dir k w) eqn:E1; [|destruct (is_dir (parent k) w) eqn:E2];
      injection X as <- <-.
    + right. split; [eauto|]. split; auto. congruence.
    + left. auto.
    + right. split; [eauto|]. split; auto. congruence.
  - right. split; [exact X|]. split; [auto|congruence].
Qed.

Lemma is_prefix_longer x k : (length (snd k) < length (snd x))%nat -> is_prefix_of x k = false.
Proof.
  intros H. unfold is_prefix_of. destruct (comps_eqb _ _) eqn:E; [|rewrite andb_false_r; auto].
  apply comps_eqb_eq in E. apply (f_equal (@length _)) in E. rewrite firstn_length in E. lia.
Qed.

Lemma step_set_file k v w : step (eq (CFile k)) w (set_files (kupd k v (w_files w)) w).
Proof.
  split; [|split; [split; auto|intros E; auto]]. repeat split; auto. simpl.
  intros. apply kupd_other. congruence.
Qed.

Lemma ready_base id base n w : ready (FileStorage id base) n w -> base_ready base w.
Proof. intros (_ & [(_ & B)|(D & _)]); auto. left. auto. Qed.

(** Both conditions survive as long as directories stay and no new directories
    appear, and once the directory of the storage exists. *)
Lemma ready_keep id base n w w' : ready (FileStorage id base) n w ->
  is_dir (key_of base) w' = true ->
  (forall k, is_dir k w = true -> is_dir k w' = true) ->
  is_dir (res_key (FileStorage id base) n) w' = is_dir (res_key (FileStorage id base) n) w ->
  ready (FileStorage id base) n w'.
Proof.
  intros (N & X) B D E. split; [congruence|]. destruct X as [(V & _)|(_ & P)].
  - left. split; auto. left. auto.
  - right. auto.
Qed.

Lemma create_output_stream_cases st name w o w' :
  create_output_stream st name w = (o, w') ->
  (exists s, o = Ret (Ok s) /\ cell_of s = cell_at st name /\
      step (eq (cell_at st name)) w w' /\
      (at_end st name w -> at_pos s w' (start st name w) (len (start st name w))) /\
      (w_faults w = [] -> forall n, ready st n w -> ready st n w' /\
         (is_file st = true -> is_dir (key_of (st_base st)) w' = true))) \/
  (is_file st = true /\ step nothing w w' /\ w_files w' = w_files w /\
     ((exists k, o = Ret (Er k)) \/ o = Crash) /\
     (w_faults w = [] -> ready st name w -> False)).
Proof.
  intros R. destruct st as [id base|id base].
  - simpl in R. injection R as <- <-. left. eexists. split; [reflexivity|]. split; auto.
    destruct (w_streams w id (res_key (MemStorage id base) name)) as [[c p]|] eqn:E.
    + split; [apply step_refl|]. split; [|simpl; intros; split; [auto|discriminate]]. unfold at_end, start, at_pos.
      rewrite E. intros ->. auto.
    + split.
      * split; [|split; [split; auto|intros H; auto]]. repeat split; simpl; auto.
        destruct (Nat.eq_dec id0 id) as [->|N].
        -- rewrite nupd_same. apply kupd_other. intros ->. apply H. auto.
        -- rewrite nupd_other; auto.
      * split; [|simpl; intros; split; [auto|discriminate]]. unfold at_end, start. rewrite E. intros _. simpl.
        rewrite nupd_same, kupd_same. auto.
  - set (st := FileStorage id base) in *. unfold create_output_stream in R. fold st in R.
    unfold mbind in R. unfold st in R at 1. destruct (path_exists (key_of base) w) as [o1 w1] eqn:E1.
    apply path_exists_cases in E1. destruct E1 as (S1 & F1 & D1 & X1 & N1 & T1).
    destruct X1 as [(x & ->)|(-> & Hf)].
    2:{ injection R as <- <-. right.
        refine (conj eq_refl (conj S1 (conj F1 (conj _ _)))); [auto|congruence]. }
    unfold mtry, mbind in R.
    destruct ((if x then mret (Ok tt) else create_dir_all (key_of base)) w1) as [o2 w2] eqn:E2.
    assert (H2 : step nothing w1 w2 /\ w_files w2 = w_files w /\
       ((o2 = Ret (Ok tt) /\ 
         (w_faults w = [] -> base_ready base w -> is_dir (key_of base) w2 = true /\
            forall n, ready st n w -> ready st n w2)) \/
        ((exists k, o2 = Ret (Er k)) \/ o2 = Crash) /\ (w_faults w = [] -> base_ready base w -> False))).
    { destruct x.
      - injection E2 as <- <-. split; [apply step_refl|]. split; auto. left. split; auto.
        assert (HD : forall k, is_dir k w1 = is_dir k w) by (intros; unfold is_dir; rewrite D1; auto).
        intros Hf H. assert (Bd : is_dir (key_of base) w1 = true).
        { rewrite HD. destruct H as [H|H]; auto.
          specialize (T1 eq_refl). unfold on_disk in T1.
          specialize (H (length (snd (key_of base)))). rewrite key_of_full in H. rewrite H in T1. auto. }
        split; auto. intros n Rn. apply (ready_keep id base n w w1); [exact Rn|exact Bd|intros k; rewrite HD; auto|apply HD].
      - apply create_dir_all_cases in E2. destruct E2 as (S2 & F2 & X2). split; auto. split; [congruence|].
        destruct X2 as [(-> & B2 & D2)|(X2 & D2 & N2)].
        + left. split; auto. intros Hf H. split; auto. intros n Rn.
          specialize (N1 Hf). injection N1 as N1. unfold on_disk in N1.
          assert (Nd : is_dir (key_of base) w = false).
          { unfold is_dir. destruct (w_files w (key_of base)); congruence. }
          destruct Rn as (Nk & [(V & _)|(Bd & _)]); [|congruence].
          split; [|left; split; auto; left; auto].
          unfold is_dir. rewrite D2, D1. rewrite is_prefix_longer, orb_false_r; auto.
          rewrite res_key_valid by auto. simpl. rewrite app_length. simpl. lia.
        + right. split; auto. intros Hf B. apply N2; [apply S1; auto|].
          intros n. rewrite F1. destruct B as [B|B]; [|apply B].
          exfalso. specialize (N1 Hf). injection N1 as N1. unfold on_disk in N1. unfold is_dir in B.
          destruct (w_files w (key_of base)); congruence. }
    destruct H2 as (S2 & F2 & H2).
    destruct H2 as [(-> & B2)|(X2 & N2)].
    2:{ right. split; auto. split; [|split].
        - destruct X2 as [(k & ->)| ->]; injection R as <- <-; eapply step_trans; eauto.
        - destruct X2 as [(k & ->)| ->]; injection R as <- <-; auto.
        - split; [destruct X2 as [(k & ->)| ->]; injection R as <- <-; eauto|].
          intros Hf Rn. apply ready_base in Rn. auto. }
    apply file_create_cases in R. destruct R as (w3 & S3 & F3 & D3 & X3).
    assert (S13 : step nothing w w3) by (eapply step_trans; [eapply step_trans|]; eauto).
    destruct X3 as [(-> & K3 & P3 & ->)|(X3 & -> & N3)].
    + left. eexists. split; [reflexivity|]. split; auto. split; [|split].
      * eapply step_trans; [eapply step_mono; [|exact S13]; intros ? []|apply step_set_file].
      * intros _. simpl. rewrite kupd_same. auto.
      * intros Hf n Rn. assert (Bn := ready_base _ _ _ _ Rn). destruct (B2 Hf Bn) as (Bd & Rk).
        assert (HD : forall k, is_dir k (set_files (kupd (res_key st name) (Some []) (w_files w3)) w3) = is_dir k w2).
        { intros. unfold is_dir. simpl. rewrite D3. auto. }
        split; [|intros _; simpl; rewrite HD; auto].
        eapply ready_keep; [apply Rk; auto|rewrite HD; auto|intros k; rewrite HD; auto|apply HD].
    + right. split; auto. split; auto. split; [congruence|]. split; auto. intros Hf Rn.
      assert (Bn := ready_base _ _ _ _ Rn). destruct (B2 Hf Bn) as (Bd & Rk).
      destruct (Rk name Rn) as (Nk & X). apply N3.
      * apply S2, S1; auto.
      * auto.
      * destruct X as [(V & _)|(_ & P)]; auto. rewrite parent_res_key by auto. auto.
Qed.

(** * ResourceStorage::write *)


Lemma cell_schema st name : cell_at st (schema_name name) <> cell_at st name.
Proof.
  intros H. apply (res_key_schema st name). destruct st; simpl in H; congruence.
Qed.

Lemma at_end_touches P st n w w' : touches P w w' -> ~ P (cell_at st n) -> at_end st n w -> at_end st n w'.
Proof.
  intros (A1 & _) N. destruct st; simpl in *; auto. destruct (A1 _ _ N) as [-> _]. auto.
Qed.
Lemma start_touches P st n w w' : touches P w w' -> ~ P (cell_at st n) -> start st n w' = start st n w.
Proof.
  intros (A1 & _) N. destruct st; simpl in *; auto. destruct (A1 _ _ N) as [-> _]. auto.
Qed.

Lemma can_fail_file s st n w : cell_of s = cell_at st n -> can_fail s w -> is_file st = true /\ w_faults w <> [].
Proof. destruct s, st; simpl; try discriminate; tauto. Qed.

Lemma start_file st n w : is_file st = true -> start st n w = [].
Proof. destruct st; simpl; auto; discriminate. Qed.

Lemma ready_wstep P st n w w' : wstep P w w' -> (is_file st = true -> is_dir (key_of (st_base st)) w = true) ->
  ready st n w -> ready st n w'.
Proof.
  intros (T & D) B R. destruct st as [|id base]; auto. simpl in B.
  assert (HD : forall k, is_dir k w' = is_dir k w) by (intros; unfold is_dir; rewrite D; auto).
  apply (ready_keep id base n w w'); [exact R|rewrite HD; auto|intros k; rewrite HD; auto|apply HD].
Qed.

(** Nothing of the resource stored, a part of its data, or all data and a part
    of its schema. *)
Definition write_progress (st : storage) (name : string) (schema data : list Z) (w w' : world) : Prop :=
  let kd := cell_at st name in let ks := cell_at st (schema_name name) in
  (bytes_at kd w' = bytes_at kd w /\ bytes_at ks w' = bytes_at ks w) \/
  (exists p q, resource_bytes data = p ++ q /\ bytes_at kd w' = Some p /\ bytes_at ks w' = bytes_at ks w) \/
  (exists p q, schema = p ++ q /\ bytes_at kd w' = Some (resource_bytes data) /\ bytes_at ks w' = Some p).

Lemma write_cases b e st name schema data w o w' :
  at_end st name w -> at_end st (schema_name name) w ->
  write b e st name schema data w = (o, w') ->
  step (cells_of st name) w w' /\
  ((o = Ret (Ok tt) /\ bytes_at (cell_at st name) w' = Some (start st name w ++ resource_bytes data) /\
    bytes_at (cell_at st (schema_name name)) w' = Some (start st (schema_name name) w ++ schema)) \/
   (is_file st = true /\ failed o /\ (w_faults w = [] -> ~ unblocked st name w) /\
    write_progress st name schema data w w')).
Proof.
  intros Ad As R. set (kd := cell_at st name). set (ks := cell_at st (schema_name name)).
  assert (Hk : ks <> kd) by apply cell_schema.
  assert (P1 : forall c, eq kd c -> cells_of st name c) by (intros c <-; left; auto).
  assert (P2 : forall c, eq ks c -> cells_of st name c) by (intros c <-; right; auto).
  assert (P0 : forall c, nothing c -> cells_of st name c) by (intros c []).
  unfold write, mtry, mbind in R.
  destruct (create_output_stream st name w) as [o1 w1] eqn:E1.
  apply create_output_stream_cases in E1.
  destruct E1 as [(s1 & -> & C1 & S1 & A1 & V1)|(Fs & S1 & F1 & X1 & N1)].
  2:{ assert (w' = w1 /\ failed o) as [-> Fo].
      { destruct X1 as [(k & ->)| ->]; injection R as <- <-; split; [reflexivity| |reflexivity|]; unfold failed; eauto. }
      split; [eapply step_mono; [exact P0|exact S1]|]. right. split; auto. split; auto. split.
      - intros Hf (N & _). auto.
      - left. split; eapply bytes_at_touches; try apply S1; intros []. }
  specialize (A1 Ad). fold kd in S1, C1.
  destruct (write_to_stream b e data s1 w1) as [o2 w2] eqn:E2.
  eapply write_to_stream_cases in E2; eauto. rewrite C1 in E2. destruct E2 as (S2 & X2).
  assert (S12 : step (eq kd) w w2) by (eapply step_trans; [exact S1|apply S2]).
  assert (Us : bytes_at ks w2 = bytes_at ks w) by (eapply bytes_at_touches; [apply S12|congruence]).
  destruct X2 as [(-> & B2 & _)|X2].
  2:{ destruct X2 as (Cf & Fo & p & q & Ep & Bp). rewrite C1 in Bp.
      destruct (can_fail_file s1 st name w1 C1 Cf) as (Hfile & Hf).
      rewrite (start_file st name w Hfile) in *. simpl in Bp.
      assert (w' = w2 /\ failed o) as [-> Fo2].
      { destruct Fo as [(k & ->)| ->]; injection R as <- <-; split; [reflexivity| |reflexivity|]; unfold failed; eauto. }
      split; [eapply step_mono; [exact P1|exact S12]|]. right. split; auto. split; auto. split.
      - intros H. exfalso. apply Hf. apply S1. auto.
      - right. left. exists p, q. auto. }
  destruct (create_output_stream st (schema_name name) w2) as [o3 w3] eqn:E3.
  apply create_output_stream_cases in E3.
  assert (As2 : at_end st (schema_name name) w2) by (eapply at_end_touches; [apply S12|intros HH; apply Hk; symmetry; exact HH|auto]).
  assert (St2 : start st (schema_name name) w2 = start st (schema_name name) w)
    by (eapply start_touches; [apply S12|intros HH; apply Hk; symmetry; exact HH]).
  destruct E3 as [(s3 & -> & C3 & S3 & A3 & V3)|(Fs & S3 & F3 & X3 & N3)].
  2:{ assert (w' = w3 /\ failed o) as [-> Fo].
      { destruct X3 as [(k & ->)| ->]; injection R as <- <-; split; [reflexivity| |reflexivity|]; unfold failed; eauto. }
      split; [eapply step_trans; [eapply step_mono; [exact P1|exact S12]|eapply step_mono; [exact P0|exact S3]]|].
      right. split; auto. split; auto. split.
      - intros Hf (N & Ns). destruct (V1 Hf _ Ns) as (R1 & B1). apply N3.
        + apply S12; auto.
        + eapply ready_wstep; [exact S2|exact B1|exact R1].
      - right. left. exists (resource_bytes data), []. rewrite app_nil_r. split; auto.
        rewrite (start_file st name w Fs) in B2. split.
        + erewrite bytes_at_touches; [exact B2|apply S3|intros []].
        + erewrite bytes_at_touches; [exact Us|apply S3|intros []]. }
  specialize (A3 As2). fold ks in C3, S3.
  eapply write_schema_cases in R; eauto. rewrite C3 in R. destruct R as (S4 & X4).
  assert (S34 : step (eq ks) w2 w') by (eapply step_trans; [exact S3|apply S4]).
  assert (Bd : bytes_at kd w' = Some (start st name w ++ resource_bytes data)).
  { erewrite bytes_at_touches; [exact B2|apply S34|]. congruence. }
  split; [eapply step_trans; [eapply step_mono; [exact P1|exact S12]|eapply step_mono; [exact P2|exact S34]]|].
  destruct X4 as [(-> & B4)|(Cf & Fo & p & q & Ep & Bp)].
  - left. split; auto. split; auto. fold ks. rewrite B4, St2. auto.
  - right. destruct (can_fail_file s3 st (schema_name name) w3 C3 Cf) as (Hfile & Hf).
    rewrite C3 in Bp. rewrite (start_file st _ _ Hfile) in Bp. rewrite (start_file st _ _ Hfile) in Bd. split; auto. split; auto. split.
    + intros H. exfalso. apply Hf. apply S3, S12. auto.
    + right. right. exists p, q. auto.
Qed.

(** * Reading *)
Lemma whole_firstn c l : 0 <= l <= len c ->
  mkSlice (firstn (Z.to_nat l) c) l = whole (firstn (Z.to_nat l) c).
Proof. intros. unfold whole. rewrite len_firstn by lia. auto. Qed.

Lemma sl_bytes_whole c : sl_bytes (whole c) = c.
Proof. unfold sl_bytes, whole, len. simpl. rewrite Nat2Z.id. apply firstn_all. Qed.

(** Reading stores nothing; it may cache the bytes it returns. *)
Definition reading (st : storage) (name : string) (w w' : world) : Prop :=
  touches (eq (cell_at st name)) w w' /\ calm w w' /\
  w_files w' = w_files w /\ w_streams w' = w_streams w /\ w_dirs w' = w_dirs w /\
  (maps_ok w -> maps_ok w') /\
  (forall st' n x, finds st' w n x -> finds st' w' n x).

Lemma reading_trans st n1 n2 w1 w2 w3 :
  reading st n1 w1 w2 -> reading st n2 w2 w3 ->
  touches (fun c => c = cell_at st n1 \/ c = cell_at st n2) w1 w3 /\ calm w1 w3 /\
  w_files w3 = w_files w1 /\ w_streams w3 = w_streams w1 /\ w_dirs w3 = w_dirs w1 /\
  (maps_ok w1 -> maps_ok w3) /\ (forall st' n x, finds st' w1 n x -> finds st' w3 n x).
Proof.
  intros (T & C & F & S & D & M & N) (T' & C' & F' & S' & D' & M' & N').
  split.
  { eapply touches_trans; eapply touches_mono; try eassumption; simpl; intros c <-; auto. }
  split; [eapply calm_trans; eauto|]. split; [congruence|]. split; [congruence|].
  split; [congruence|]. auto.
Qed.

Lemma reading_fault st name w : reading st name w (set_faults (tl (w_faults w)) w).
Proof.
  split; [apply touches_faults|]. split; [apply (step_fault nothing)|].
  split; [auto|]. split; [auto|]. split; [auto|]. split; auto.
Qed.

Lemma reading_refl st name w : reading st name w w.
Proof. split; [apply touches_refl|]. split; [apply calm_refl|]. repeat (split; [auto|]). auto. Qed.

Lemma syscall_eq {A} (act : M (result A io_kind)) w :
  (exists w1, w1 = set_faults (tl (w_faults w)) w /\ syscall act w = act w1) \/
  (w_faults w <> [] /\ exists o, syscall act w = (o, set_faults (tl (w_faults w)) w) /\
     ((exists k, o = Ret (Er k)) \/ o = Crash)).
Proof.
  unfold syscall. destruct (next_fault w) as [f w1] eqn:F.
  destruct (next_fault_cases _ _ _ F) as [-> Hf].
  destruct f; [left; eauto|right; split; [apply Hf; congruence|]; eexists; split; [reflexivity|]; eauto ..].
Qed.

Definition finds_exact (st : storage) (name : string) (w : world) (o : outcome (result slice io_kind)) : Prop :=
  (forall sl, o = Ret (Ok sl) -> exists c, sl = whole c /\ finds st w name (Some c)) /\
  (forall x, w_faults w = [] -> finds st w name x ->
     match x with Some c => o = Ret (Ok (whole c)) | None => exists k, o = Ret (Er k) end) /\
  o <> Panic /\
  (o = UB -> forall x, ~ finds st w name x) /\
  (o = Crash -> is_file st = true /\ w_faults w <> []) /\
  (forall k, o = Ret (Er k) -> is_file st = true /\ w_faults w <> [] \/ forall c, ~ finds st w name (Some c)).

Lemma finds_same st st' w w' n x : w_files w' = w_files w -> w_streams w' = w_streams w ->
  w_maps w' = w_maps w -> w_resources w' = w_resources w ->
  st' = st -> finds st w n x -> finds st' w' n x.
Proof. intros F S M R -> H. unfold finds, bytes_at in *. destruct st; simpl in *; rewrite ?F, ?S, ?M, ?R; auto. Qed.

Lemma read_resource_cases st name w o w' : maps_ok w -> read_resource st name w = (o, w') ->
  reading st name w w' /\ finds_exact st name w o.
Proof.
  intros MO R. destruct st as [id base|id base].
  - simpl in R. set (k := res_key (MemStorage id base) name) in *. unfold finds_exact, finds. simpl. fold k.
    destruct (w_resources w id k) as [c|] eqn:E.
    + injection R as <- <-. split; [apply reading_refl|]. split; [|split; [|split; [|split; [|split]]]]; try congruence.
      * intros sl [= <-]. eauto.
      * intros x _ ->. auto.
    + destruct (w_streams w id k) as [[c p]|] eqn:E2; injection R as <- <-.
      * split.
        -- split; [|split; [intros H; auto|]].
           ++ repeat split; simpl; auto. destruct (Nat.eq_dec id0 id) as [->|Ni].
              ** rewrite nupd_same. apply kupd_other. intros ->. apply H. reflexivity.
              ** rewrite nupd_other; auto.
           ++ split; [auto|]. split; [auto|]. split; [auto|]. split; [auto|].
              intros st' n x. destruct st' as [id' base'|id' base']; simpl; [|auto].
              destruct (Nat.eq_dec id' id) as [->|Ni]; [|rewrite nupd_other; auto].
              rewrite nupd_same. destruct (key_eq_dec (res_key (MemStorage id base') n) k) as [Ek|Nk].
              ** rewrite Ek, kupd_same, E, E2. auto.
              ** rewrite kupd_other; auto.
        -- split; [|split; [|split; [|split; [|split]]]]; try congruence.
           ++ intros sl [= <-]. eexists. split; reflexivity.
           ++ intros x _ ->. simpl. auto.
      * split; [apply reading_refl|]. split; [|split; [|split; [|split; [|split]]]]; try congruence.
        -- intros x _ ->. simpl. eauto.
        -- intros k0 _. right. simpl. congruence.
  - set (st := FileStorage id base) in *. unfold read_resource in R. fold st in R. unfold st in R at 1.
    set (k := res_key st name) in *. set (pth := res_path st name) in *.
    assert (Hk : key_of pth = k) by reflexivity.
    unfold mbind, path_exists, mbind in R.
    set (act := fun w0 : world => (Ret (Ok (on_disk k w0)), w0)) in R.
    set (w1 := set_faults (tl (w_faults w)) w) in *.
    destruct (syscall_eq act w) as [(w1' & E1 & E)|(Hf & o1 & E & X1)].
    2:{ rewrite E in R. destruct X1 as [(kd & ->)| ->]; simpl in R; injection R as <- <-.
        - split; [apply reading_fault|]. split; [|split; [|split; [|split; [|split]]]]; try congruence.
          intros k0 _. left. auto.
        - split; [apply reading_fault|]. split; [|split; [|split; [|split; [|split]]]]; try congruence.
          auto. }
    rewrite E1 in E. fold w1 in E. rewrite E in R. unfold act, mret in R. clear E act E1 w1'.
    assert (Fw : forall x, finds st w name x <-> finds st w1 name x).
    { intros x. split; apply finds_same; auto. }
    assert (R1 : reading st name w w1) by apply reading_fault.
    destruct (on_disk k w1) eqn:Eo.
    2:{ injection R as <- <-. split; auto. 
        assert (w_files w k = None) as Fk.
        { unfold on_disk in Eo. unfold w1 in Eo. simpl in Eo. destruct (w_files w k); auto. discriminate. }
        assert (FN : forall c, ~ finds st w name (Some c)).
        { intros c Fx. simpl in Fx. fold st pth k in Fx. rewrite Fk in Fx.
          destruct (w_maps w id pth); [destruct Fx as (c0 & ? & _)|]; discriminate. }
        split; [|split; [|split; [|split; [|split]]]]; try congruence; auto.
        intros x Hf Fx. destruct x as [c|]; eauto. exfalso. eapply FN; eauto. }
    unfold mmap_read in R. rewrite Hk in R.
    replace (w_maps w1 id pth) with (w_maps w id pth) in R by reflexivity.
    destruct (w_maps w id pth) as [l|] eqn:Em.
    { assert (Hl : 0 < l) by (eapply MO; eauto).
      replace (mapped k l w1) with (mapped k l w) in R by reflexivity. unfold mapped in R.
      destruct (l <=? len (file_content k w)) eqn:El; injection R as <- <-; split; auto.
      - unfold omap, obind. rewrite whole_firstn by lia.
        assert (FF : forall x, finds st w name x -> x = Some (firstn (Z.to_nat l) (file_content k w))).
        { intros x Fx. simpl in Fx. fold st pth k in Fx. rewrite Em in Fx.
          destruct Fx as (c & Fk & Lc & ->). unfold file_content. rewrite Fk. auto. }
        assert (Fk : exists c, w_files w k = Some c).
        { destruct (w_files w k) eqn:Fk; eauto. exfalso. unfold file_content in El. rewrite Fk in El.
          rewrite len_nil in El. lia. }
        split; [|split; [|split; [|split; [|split]]]]; try discriminate.
        + intros sl [= <-]. eexists. split; [reflexivity|]. simpl. fold st pth k. rewrite Em.
          destruct Fk as (c & Fk). exists c. unfold file_content in *. rewrite Fk in *. split; auto. split; auto. lia.
        + intros x _ Fx. rewrite (FF x Fx). auto.
      - split; [|split; [|split; [|split; [|split]]]]; try discriminate.
        + intros x _ Fx. exfalso. simpl in Fx. fold st pth k in Fx. rewrite Em in Fx.
          destruct Fx as (c & Fk & Lc & _). unfold file_content in El. rewrite Fk in El. lia.
        + intros _ x Fx. simpl in Fx. fold st pth k in Fx. rewrite Em in Fx.
          destruct Fx as (c & Fk & Lc & _). unfold file_content in El. rewrite Fk in El. lia. }
    set (act := fun w0 : world => match w_files w0 k with None => _ | Some c => _ end) in R.
    set (w2 := set_faults (tl (w_faults w1)) w1) in *.
    assert (R2 : reading st name w w2).
    { assert (reading st name w1 w2) as R2 by apply reading_fault.
      destruct (reading_trans _ _ _ _ _ _ R1 R2) as (T & X). split; [|exact X].
      eapply touches_mono; [|exact T]. simpl. intros c [H|H]; auto. }
    destruct (syscall_eq act w1) as [(w2' & E1 & E)|(Hf & o1 & E & X1)].
    2:{ assert (Hf' : w_faults w <> []) by (intros H; apply Hf; apply R1; auto).
        rewrite E in R. destruct X1 as [(kd & ->)| ->]; injection R as <- <-; split; auto;
          (split; [|split; [|split; [|split; [|split]]]]; try congruence; auto). }
    rewrite E1 in E. fold w2 in E. rewrite E in R. unfold act in R. clear E act E1 w2'.
    replace (w_files w2 k) with (w_files w k) in R by reflexivity.
    destruct (w_files w k) as [c|] eqn:Fk.
    2:{ injection R as <- <-. split; auto.
        assert (FN : forall c, ~ finds st w name (Some c)).
        { intros c Fx. simpl in Fx. fold st pth k in Fx. rewrite Fk, Em in Fx. discriminate. }
        split; [|split; [|split; [|split; [|split]]]]; try congruence; auto.
        intros x _ Fx. destruct x; [exfalso; eapply FN; eauto|eauto]. }
    destruct (len c =? 0) eqn:El.
    { assert (c = []) as -> by (destruct c; auto; rewrite len_cons in El; pose proof (len_nonneg c); lia).
      injection R as <- <-. split; auto.
      assert (FN : forall c, ~ finds st w name (Some c)).
      { intros c Fx. simpl in Fx. fold st pth k in Fx. rewrite Fk, Em in Fx. discriminate. }
      split; [|split; [|split; [|split; [|split]]]]; try congruence; auto.
      intros x _ Fx. destruct x; [exfalso; eapply FN; eauto|eauto]. }
    assert (Hc : c <> []) by (intros ->; rewrite len_nil in El; lia).
    assert (Hlc : 0 < len c) by (pose proof (len_nonneg c); lia).
    assert (FS : finds st w name (Some c)).
    { simpl. fold st pth k. rewrite Em, Fk. destruct c; congruence. }
    unfold mapped in R. unfold file_content in R. simpl in R. rewrite Fk in R.
    destruct (len c <=? len c) eqn:Ec; [|lia]. injection R as <- <-.
    split.
    + destruct R2 as (T & C & F & S & D & M & N). split; [|split; [intros H; apply C; auto|]].
      * eapply touches_trans; [exact T|]. repeat split; simpl; auto. intros id' p' H.
        destruct (Nat.eq_dec id' id) as [->|Ni]; [|rewrite nupd_other; auto].
        rewrite nupd_same. apply supd_other. intros ->. apply H. reflexivity.
      * split; [auto|]. split; [auto|]. split; [auto|]. split.
        { intros _ id' p' l. simpl. destruct (Nat.eq_dec id' id) as [->|Ni]; [|rewrite nupd_other by auto; apply MO].
          rewrite nupd_same. destruct (string_dec p' pth) as [->|Np]; [|rewrite supd_other by auto; apply MO].
          rewrite supd_same. intros [= <-]. auto. }
        intros st' n x Fx. destruct st' as [id' base'|id' base']; [exact Fx|].
        simpl in *. destruct (Nat.eq_dec id' id) as [->|Ni]; [|rewrite nupd_other by auto; auto].
        rewrite nupd_same. set (st' := FileStorage id base') in *.
        destruct (string_dec (res_path st' n) pth) as [Ep|Np]; [|rewrite supd_other by auto; auto].
        rewrite Ep, supd_same, Em in *.
        assert (Ek : res_key st' n = k) by (unfold res_key; rewrite Ep; auto).
        rewrite Ek in *. rewrite Fk in *. exists c. split; auto. split; [lia|].
        unfold len. rewrite Nat2Z.id, firstn_all. destruct c; congruence.
    + assert (FF : forall x, finds st w name x -> x = Some c).
      { intros x Fx. simpl in Fx. fold st pth k in Fx. rewrite Em, Fk in Fx. destruct c; congruence. }
      unfold omap, obind. rewrite whole_firstn by lia.
      assert (firstn (Z.to_nat (len c)) c = c) as -> by (unfold len; rewrite Nat2Z.id; apply firstn_all).
      split; [|split; [|split; [|split; [|split]]]]; try discriminate.
      * intros sl [= <-]. eauto.
      * intros x _ Fx. rewrite (FF x Fx). auto.
Qed.

(** * The checks of read *)
Lemma len_le_bytes n v : len (le_bytes n v) = Z.of_nat n.
Proof. unfold len. rewrite le_bytes_length. auto. Qed.

Lemma framed_len d pad : len (framed d pad) = 8 + len d + len pad.
Proof. unfold framed. rewrite !len_app, len_le_bytes. lia. Qed.

Lemma firstn_app_exact {A} (a b : list A) n : length a = n -> firstn n (a ++ b) = a.
Proof. intros <-. rewrite firstn_app, Nat.sub_diag, firstn_all. simpl. apply app_nil_r. Qed.
Lemma skipn_app_exact {A} (a b : list A) n : length a = n -> skipn n (a ++ b) = b.
Proof. intros <-. rewrite skipn_app, Nat.sub_diag, skipn_all. auto. Qed.

Lemma skipn_add {A} a b (l : list A) : skipn a (skipn b l) = skipn (b + a) l.
Proof. revert l. induction b; intros [|x l]; simpl; rewrite ?skipn_nil; auto. Qed.

Lemma framed_header d pad : firstn 8 (framed d pad) = le_bytes 8 (len d).
Proof. apply firstn_app_exact. apply le_bytes_length. Qed.
Lemma framed_data d pad : firstn (Z.to_nat (len d)) (skipn 8 (framed d pad)) = d.
Proof.
  unfold framed. rewrite skipn_app_exact by apply le_bytes_length.
  apply firstn_app_exact. unfold len. lia.
Qed.

Lemma framed_inj d pad d' pad' : framed d pad = framed d' pad' -> len pad = 8 -> len pad' = 8 -> d = d'.
Proof.
  intros H P P'. assert (len d = len d') by (apply (f_equal len) in H; rewrite !framed_len in H; lia).
  rewrite <- (framed_data d pad), <- (framed_data d' pad'), H, H0. auto.
Qed.


Lemma header_framed d pad : len d < 2 ^ 64 -> header (framed d pad) = len d.
Proof.
  intros H. unfold header. rewrite framed_header, le_val_bytes.
  apply Z.mod_small. pose proof (len_nonneg d). change (8 * Z.of_nat 8) with 64. lia.
Qed.

(** A byte string is framed exactly if it has 16 bytes and its header is its
    length minus 16. *)
Lemma framed_iff c : bytes_ok c -> len c <= isize_max ->
  ((exists d pad, c = framed d pad /\ len pad = 8) <-> 16 <= len c /\ header c = len c - 16).
Proof.
  intros B L. unfold isize_max in L. split.
  - intros (d & pad & -> & P). rewrite framed_len in *. pose proof (len_nonneg d).
    rewrite header_framed by lia. lia.
  - intros (L16 & H). exists (firstn (Z.to_nat (len c - 16)) (skipn 8 c)), (skipn (Z.to_nat (len c - 8)) c).
    assert (Ld : len (firstn (Z.to_nat (len c - 16)) (skipn 8 c)) = len c - 16).
    { apply len_firstn. change 8%nat with (Z.to_nat 8). rewrite len_skipn by lia. lia. }
    split; [|rewrite len_skipn; lia]. unfold framed. rewrite Ld.
    assert (L8 : length (firstn 8 c) = 8%nat) by (rewrite firstn_length; unfold len in L16; lia).
    assert (Hh : le_bytes 8 (len c - 16) = firstn 8 c).
    { rewrite <- H. unfold header. rewrite <- L8 at 1. apply le_bytes_val. apply bytes_ok_firstn; auto. }
    rewrite Hh. rewrite <- (firstn_skipn 8 c) at 1. f_equal.
    rewrite <- (firstn_skipn (Z.to_nat (len c - 16)) (skipn 8 c)) at 1. f_equal.
    rewrite skipn_add. f_equal. lia.
Qed.

Lemma read_size b e c : bytes_ok c -> 8 <= len c -> read_bytes b e U64 c 0 64 = Ret (header c).
Proof.
  intros B L. rewrite read_field_value; auto.
  - f_equal. unfold field_value, is_signed, header. apply Z.bits_inj'. intros j Hj.
    rewrite field_unsigned_testbit by lia. rewrite le_val_testbit by (auto; apply bytes_ok_firstn; auto).
    destruct (j <? 64) eqn:E.
    + rewrite andb_true_l. change 8%nat with (Z.to_nat 8). rewrite bit_at_firstn by lia. f_equal.
    + rewrite andb_false_l. rewrite bit_at_overflow; auto. change 8%nat with (Z.to_nat 8). rewrite len_firstn by lia. lia.
  - split; lia.
  - left. lia.
  - simpl. lia.
Qed.

Lemma bytes_eqb_eq a b : bytes_eqb a b = true <-> a = b.
Proof.
  revert b. induction a as [|x a IH]; intros [|y b]; simpl; try (split; congruence).
  rewrite andb_true_iff, Z.eqb_eq, IH. split; [intros [-> ->]|intros [= -> ->]]; auto.
Qed.

Lemma header_range c : bytes_ok c -> 8 <= len c -> 0 <= header c < 2 ^ 64.
Proof.
  intros B L. unfold header. assert (H := le_val_range (firstn 8 c) (bytes_ok_firstn 8 c B)).
  change 8%nat with (Z.to_nat 8) in *. rewrite len_firstn in H by lia. auto.
Qed.

Local Arguments firstn : simpl never.
Local Arguments skipn : simpl never.
(** The result of the checks, in both builds. *)
Lemma check_resource_cases b e name expected c sc : stored_ok c ->
  (exists r, check_resource b e name expected (whole c) (whole sc) = Ret r /\
     verdict name expected c sc (seen r) /\
     (forall d, r = Ok d -> slice_ok d /\ len (sl_mem d) = sl_len d + 8)) \/
  (b = Debug /\ 16 <= len c /\ 2 ^ 64 <= header c + 16 /\
   check_resource b e name expected (whole c) (whole sc) = Panic).
Proof.
  intros (B & L). assert (FI := framed_iff c B L). unfold check_resource.
  change (sl_len (whole c)) with (len c). change (sl_mem (whole c)) with c.
  change (SIZE_OF_SIZE_TYPE + PADDING_SIZE) with 16. pose proof (len_nonneg c) as Lc.
  unfold isize_max in L.
  destruct (len c <? 16) eqn:E16.
  { left. eexists. split; [reflexivity|]. split; [|discriminate]. constructor. intros d pad -> P.
    rewrite framed_len in E16. pose proof (len_nonneg d). lia. }
  rewrite read_size by (auto; lia). assert (HR := header_range c B ltac:(lia)).
  simpl obind. unfold uadd.
  assert (SZ : (header c + 8 + 8 =? len c) = false -> forall d pad, c = framed d pad -> len pad <> 8).
  { intros N d pad E P. destruct FI as [FI _]. destruct FI as (_ & H); eauto. lia. }
  assert (Tail : header c + 8 + 8 = len c ->
    exists r, (if negb (utf8_ok (sl_bytes (whole sc))) then Ret (Er EUtf8)
    else if negb (bytes_eqb (sl_bytes (whole sc)) expected) then Ret (Er (EWrongSignature name))
    else d <- slice_from (whole c) SIZE_OF_SIZE_TYPE ;; d <- slice_range d 0 (header c) ;; Ret (Ok d)) = Ret r /\
     verdict name expected c sc (seen r) /\
     (forall d, r = Ok d -> slice_ok d /\ len (sl_mem d) = sl_len d + 8)).
  { intros HL. destruct FI as [_ FI]. destruct FI as (d & pad & Ec & Pl); [lia|].
    rewrite sl_bytes_whole. destruct (utf8_ok sc) eqn:U; simpl.
    2:{ eexists. split; [reflexivity|]. split; [|discriminate]. eapply VUtf8; eauto. }
    destruct (bytes_eqb sc expected) eqn:Eq; simpl.
    2:{ eexists. split; [reflexivity|]. split; [|discriminate]. eapply VSchema; eauto.
        intros H. apply bytes_eqb_eq in H. congruence. }
    apply bytes_eqb_eq in Eq. unfold slice_from. change (sl_len (whole c)) with (len c).
    rewrite slice_range_ok by (simpl; unfold SIZE_OF_SIZE_TYPE; lia). simpl.
    rewrite slice_range_ok by (simpl; unfold SIZE_OF_SIZE_TYPE; lia). simpl.
    eexists. split; [reflexivity|]. unfold SIZE_OF_SIZE_TYPE.
    assert (Hd : header c = len d).
    { apply (f_equal len) in Ec. rewrite framed_len in Ec. lia. }
    split.
    - simpl. unfold sl_bytes. simpl. rewrite Hd. replace (len d - 0) with (len d) by lia.
      replace (firstn (Z.to_nat (len d)) _) with d; [eapply VOk; eauto|]. 
      rewrite Ec. change (Z.to_nat 0) with 0%nat. change (Z.to_nat 8) with 8%nat. rewrite skipn_O.
      symmetry. apply framed_data.
    - intros d0 [= <-]. simpl. change (Z.to_nat 0) with 0%nat. rewrite skipn_O. split.
      + split; simpl; [|split].
        * rewrite len_skipn by lia. lia.
        * unfold isize_max. lia.
        * apply bytes_ok_skipn. auto.
      + rewrite len_skipn by lia. lia. }
  unfold SIZE_OF_SIZE_TYPE in *. unfold PADDING_SIZE in *.
  destruct (Z_lt_dec (header c + 16) (2 ^ 64)) as [Small|Big].
  - rewrite !wrap_ok by (unfold usize_limit; lia). simpl. rewrite wrap_ok by (unfold usize_limit; lia). simpl. left.
    destruct (header c + 8 + 8 =? len c) eqn:Et; simpl; [apply Tail; lia|].
    eexists. split; [reflexivity|]. split; [|discriminate]. constructor. apply SZ. lia.
  - destruct b.
    + right. split; auto. split; [lia|]. split; [lia|].
      destruct (Z_lt_dec (header c + 8) (2 ^ 64)).
      * rewrite wrap_ok by (unfold usize_limit; lia). simpl. rewrite wrap_debug_panic; [auto|unfold usize_limit; lia].
      * rewrite wrap_debug_panic; [auto|unfold usize_limit; lia].
    + left. assert (W : exists t, (a <- wrap_or_panic Release (header c + 8) ;; wrap_or_panic Release (a + 8)) = Ret t
        /\ t <> len c).
      { unfold wrap_or_panic. unfold usize_limit.
        destruct ((0 <=? header c + 8) && (header c + 8 <? 2 ^ 64)) eqn:E1; simpl.
        - destruct ((0 <=? header c + 8 + 8) && (header c + 8 + 8 <? 2 ^ 64)) eqn:E2; [lia|].
          eexists. split; [reflexivity|]. 
          replace (header c + 8 + 8) with (header c + 8 + 8 - 2 ^ 64 + 1 * 2 ^ 64) by lia.
          rewrite Z.mod_add by lia. rewrite Z.mod_small by lia. lia.
        - replace (header c + 8) with (header c + 8 - 2 ^ 64 + 1 * 2 ^ 64) by lia.
          rewrite Z.mod_add by lia. rewrite Z.mod_small by lia.
          destruct ((0 <=? header c + 8 - 2 ^ 64 + 8) && (header c + 8 - 2 ^ 64 + 8 <? 2 ^ 64)) eqn:E2; [|lia].
          eexists. split; [reflexivity|]. lia. }
      destruct W as (t & Et & Nt). rewrite <- obind_assoc. rewrite Et. simpl.
      destruct (t =? len c) eqn:E; [lia|]. simpl.
      eexists. split; [reflexivity|]. split; [|discriminate]. constructor. apply SZ. lia.
Qed.

(** Consequences for ResourceStorage::read/write, and programs using storages. *)
From Verif Require Import Base BaseFacts Codec CodecSpec CodecFacts.
From Verif Require Import Storage PathFacts StorageSpec StorageFacts.
Local Open Scope list_scope.
Local Open Scope Z_scope.
Local Arguments firstn : simpl never.
Local Arguments skipn : simpl never.

(** * Writing touches only the cells of the resource, whatever happens *)
Lemma write_all_wstep s d w o w' : write_all s d w = (o, w') ->
  wstep (eq (cell_of s)) w w' /\ (forall r s', o = Ret (r, s') -> cell_of s' = cell_of s).
Proof.
  intros R. destruct s as [id k|k q]; simpl in R.
  - destruct (w_streams w id k) as [[c p]|]; injection R as <- <-.
    + split; [|intros r s' [= <- <-]; auto]. split; auto. split; [|split; [split; auto|intros H; auto]].
      repeat split; simpl; auto. destruct (Nat.eq_dec id0 id) as [->|N].
      * rewrite nupd_same. apply kupd_other. intros ->. apply H. reflexivity.
      * rewrite nupd_other; auto.
    + split; [apply wstep_refl|discriminate].
  - destruct d as [|x d].
    + injection R as <- <-. split; [apply wstep_refl|]. intros r s' [= <- <-]; auto.
    + destruct (next_fault w) as [f w1] eqn:F. destruct (next_fault_cases _ _ _ F) as [-> Hf].
      assert (W : forall p d, wstep (eq (CFile k)) w (file_write k p d (set_faults (tl (w_faults w)) w))).
      { intros. eapply wstep_trans; [apply wstep_fault|apply wstep_file_write]. }
      destruct f as [|kd|n kd|n]; injection R as <- <-;
        (split; [first [apply W|apply wstep_fault]|try discriminate; intros r s' [= <- <-]; auto]).
Qed.

Lemma seek_start_wstep s w o w' : seek_start s w = (o, w') ->
  wstep (eq (cell_of s)) w w' /\ (forall r s', o = Ret (r, s') -> cell_of s' = cell_of s).
Proof.
  intros R. destruct s as [id k|k q]; simpl in R.
  - destruct (w_streams w id k) as [[c p]|]; injection R as <- <-.
    + split; [|intros r s' [= <- <-]; auto]. split; auto. split; [|split; [split; auto|intros H; auto]].
      repeat split; simpl; auto. destruct (Nat.eq_dec id0 id) as [->|N].
      * rewrite nupd_same. apply kupd_other. intros ->. apply H. reflexivity.
      * rewrite nupd_other; auto.
    + split; [apply wstep_refl|discriminate].
  - unfold mbind in R. destruct (syscall_eq (mret (Ok tt)) w) as [(w1 & -> & E)|(Hf & o1 & E & X)];
      rewrite E in R.
    + injection R as <- <-. split; [apply wstep_fault|]. intros r s' [= <- <-]; auto.
    + destruct X as [(kd & ->)| ->]; injection R as <- <-; (split; [apply wstep_fault|]).
      * intros r s' [= <- <-]; auto.
      * discriminate.
Qed.

Lemma write_size_wstep b e v s w o w' : write_size b e v s w = (o, w') ->
  wstep (eq (cell_of s)) w w' /\ (forall r s', o = Ret (r, s') -> cell_of s' = cell_of s).
Proof.
  unfold write_size, mbind, lift. rewrite write_size_bytes. apply write_all_wstep.
Qed.

Lemma stry_wstep {B} P (m : M (result unit io_kind * stream)) (f : stream -> M (result B io_kind)) w o w' :
  (forall o w', m w = (o, w') -> wstep P w w' /\
     (forall s' w2 o2, o = Ret (Ok tt, s') -> f s' w' = (o2, w2) -> wstep P w' w2)) ->
  stry m f w = (o, w') -> wstep P w w'.
Proof.
  intros H R. unfold stry, mbind in R. destruct (m w) as [o1 w1] eqn:E.
  destruct (H o1 w1 eq_refl) as (S & K).
  destruct o1 as [[[[]|k] s']| | |]; try (injection R as <- <-; exact S).
  eapply wstep_trans; [exact S|]. eapply K; eauto.
Qed.

Lemma write_to_stream_wstep b e d s w o w' : write_to_stream b e d s w = (o, w') ->
  wstep (eq (cell_of s)) w w'.
Proof.
  unfold write_to_stream. apply stry_wstep. intros o1 w1 E1.
  destruct (write_size_wstep _ _ _ _ _ _ _ E1) as (S1 & C1). split; auto.
  intros s1 w2 o2 -> . rewrite <- (C1 _ _ eq_refl). apply stry_wstep. intros o3 w3 E3.
  destruct (write_all_wstep _ _ _ _ _ E3) as (S3 & C3). split; auto.
  intros s3 w4 o4 -> . rewrite <- (C3 _ _ eq_refl). apply stry_wstep. intros o5 w5 E5.
  destruct (write_all_wstep _ _ _ _ _ E5) as (S5 & C5). split; auto.
  intros s5 w6 o6 _ [= <- <-]. apply wstep_refl.
Qed.

Lemma write_schema_wstep d s w o w' : write_schema d s w = (o, w') -> wstep (eq (cell_of s)) w w'.
Proof.
  unfold write_schema. apply stry_wstep. intros o5 w5 E5.
  destruct (write_all_wstep _ _ _ _ _ E5) as (S5 & C5). split; auto.
  intros s5 w6 o6 _ [= <- <-]. apply wstep_refl.
Qed.

Lemma create_step st n w o w' : create_output_stream st n w = (o, w') ->
  step (eq (cell_at st n)) w w' /\ (forall s, o = Ret (Ok s) -> cell_of s = cell_at st n).
Proof.
  intros R. apply create_output_stream_cases in R.
  destruct R as [(s & -> & C & S & _)|(_ & S & _ & X & _)].
  - split; auto. congruence.
  - split; [eapply step_mono; [|exact S]; intros ? []|]. destruct X as [(k & ->)| ->]; congruence.
Qed.

Lemma write_touches b e st name schema data w o w' :
  write b e st name schema data w = (o, w') -> step (cells_of st name) w w'.
Proof.
  intros R. unfold write, mtry, mbind in R.
  assert (P1 : forall c, eq (cell_at st name) c -> cells_of st name c) by (intros c <-; left; auto).
  assert (P2 : forall c, eq (cell_at st (schema_name name)) c -> cells_of st name c) by (intros c <-; right; auto).
  destruct (create_output_stream st name w) as [o1 w1] eqn:E1.
  destruct (create_step _ _ _ _ _ E1) as (S1 & C1). apply (step_mono _ _ _ _ P1) in S1.
  destruct o1 as [[s1|k]| | |]; try (injection R as <- <-; exact S1).
  eapply step_trans; [exact S1|]. specialize (C1 s1 eq_refl).
  destruct (write_to_stream b e data s1 w1) as [o2 w2] eqn:E2.
  destruct (write_to_stream_wstep _ _ _ _ _ _ _ E2) as (S2 & _). rewrite C1 in S2.
  apply (step_mono _ _ _ _ P1) in S2.
  destruct o2 as [[[]|k]| | |]; try (injection R as <- <-; exact S2).
  eapply step_trans; [exact S2|].
  destruct (create_output_stream st (schema_name name) w2) as [o3 w3] eqn:E3.
  destruct (create_step _ _ _ _ _ E3) as (S3 & C3). apply (step_mono _ _ _ _ P2) in S3.
  destruct o3 as [[s3|k]| | |]; try (injection R as <- <-; exact S3).
  eapply step_trans; [exact S3|]. specialize (C3 s3 eq_refl).
  destruct (write_schema_wstep _ _ _ _ _ R) as (S4 & _). rewrite C3 in S4.
  apply (step_mono _ _ _ _ P2) in S4. exact S4.
Qed.

(** * read *)
(** Reading stores nothing; it may cache. *)
Definition reads (P : cell -> Prop) (w w' : world) : Prop :=
  touches P w w' /\ calm w w' /\ w_files w' = w_files w /\ w_streams w' = w_streams w /\
  w_dirs w' = w_dirs w /\ (maps_ok w -> maps_ok w') /\
  (forall st' n x, finds st' w n x -> finds st' w' n x).

Lemma reading_reads st n w w' (P : cell -> Prop) : P (cell_at st n) -> reading st n w w' -> reads P w w'.
Proof.
  intros H (T & X). split; [|exact X]. eapply touches_mono; [|exact T]. intros c <-. auto.
Qed.
Lemma reads_trans P w1 w2 w3 : reads P w1 w2 -> reads P w2 w3 -> reads P w1 w3.
Proof.
  intros (T & C & F & S & D & M & N) (T' & C' & F' & S' & D' & M' & N').
  split; [eapply touches_trans; eauto|]. split; [eapply calm_trans; eauto|]. split; [congruence|].
  split; [congruence|]. split; [congruence|]. auto.
Qed.

Lemma finds_touches_back P st w w' n x : touches P w w' -> ~ P (cell_at st n) ->
  finds st w' n x -> finds st w n x.
Proof.
  intros (A1 & A2 & A3 & A4 & A5) N. destruct st as [id base|id base]; simpl in *.
  - destruct (A1 id (res_key (MemStorage id base) n) N) as [E1 E2]. rewrite E1, E2. auto.
  - rewrite A3 by auto. rewrite A2 by auto. auto.
Qed.

Definition checked b e name expected c sc : outcome (result slice rs_error) :=
  check_resource b e name expected (whole c) (whole sc).

Lemma read_cases b e st name expected w o w' : maps_ok w -> read b e st name expected w = (o, w') ->
  reads (cells_of st name) w w' /\
  (* a result other than an I/O error is that of the checks on what is found *)
  ((exists k, o = Ret (Er (EIo k name)) /\
     ((is_file st = true /\ w_faults w <> []) \/
      (forall c, ~ finds st w name (Some c)) \/ (forall c, ~ finds st w (schema_name name) (Some c)))) \/
   (o = Crash /\ is_file st = true /\ w_faults w <> []) \/
   (o = UB /\ ((forall x, ~ finds st w name x) \/ (forall x, ~ finds st w (schema_name name) x))) \/
   (exists c sc, finds st w name (Some c) /\ finds st w (schema_name name) (Some sc) /\
      o = checked b e name expected c sc)).
Proof.
  intros MO R. unfold read, mtry, mbind in R.
  destruct (read_resource st name w) as [o1 w1] eqn:E1.
  destruct (read_resource_cases _ _ _ _ _ MO E1) as (R1 & X1).
  assert (RR1 : reads (cells_of st name) w w1) by (eapply reading_reads; [left; reflexivity|exact R1]).
  destruct X1 as (A1 & _ & P1 & U1 & C1 & K1).
  destruct o1 as [[d1|k1]| | |].
  2:{ injection R as <- <-. split; auto. left. exists k1. split; auto. destruct (K1 k1 eq_refl); auto. }
  2:{ congruence. }
  2:{ injection R as <- <-. split; auto. right. right. left. split; auto. }
  2:{ injection R as <- <-. split; auto. }
  destruct (A1 d1 eq_refl) as (c & -> & Fc). clear A1 P1 U1 C1 K1.
  destruct (read_resource st (schema_name name) w1) as [o2 w2] eqn:E2.
  assert (MO1 : maps_ok w1) by (apply R1; auto).
  destruct (read_resource_cases _ _ _ _ _ MO1 E2) as (R2 & X2).
  assert (RR2 : reads (cells_of st name) w w2).
  { eapply reads_trans; [exact RR1|]. eapply reading_reads; [right; reflexivity|exact R2]. }
  destruct X2 as (A2 & _ & P2 & U2 & C2 & K2).
  assert (Cm : w_faults w1 <> [] -> w_faults w <> []) by (intros H H'; apply H, R1; auto).
  assert (Fd : forall x, finds st w (schema_name name) x -> finds st w1 (schema_name name) x) by apply R1.
  destruct o2 as [[d2|k2]| | |].
  2:{ injection R as <- <-. split; auto. left. exists k2. split; auto.
      destruct (K2 k2 eq_refl) as [(F & H)|H]; auto. right. right. intros x Fx. eapply H; eauto. }
  2:{ congruence. }
  2:{ injection R as <- <-. split; auto. right. right. left. split; auto. right. intros x Fx.
      eapply U2; eauto. }
  2:{ injection R as <- <-. split; auto. right. left. destruct (C2 eq_refl). auto. }
  destruct (A2 d2 eq_refl) as (sc & -> & Fsc).
  unfold lift in R. injection R as <- <-. split; auto. right. right. right. exists c, sc.
  split; auto. split; auto.
  assert (finds st w (schema_name name) (Some sc)); auto.
  (* what is found for the schema did not change by reading the data *)
  eapply finds_touches_back; [apply R1| |exact Fsc]. intros H. symmetry in H. apply cell_schema in H. auto.
Qed.

Lemma finds_fun st w n x y : finds st w n x -> finds st w n y -> x = y.
Proof.
  destruct st as [id base|id base]; simpl; [congruence|].
  destruct (w_maps w id _).
  - intros (c & A & _ & ->) (c' & A' & _ & ->). congruence.
  - congruence.
Qed.

(** * Exact decision *)
Lemma read_exact b e st name expected w x y : w_faults w = [] -> maps_ok w ->
  finds st w name x -> finds st w (schema_name name) y ->
  exists o w', read b e st name expected w = (o, w') /\ reads (cells_of st name) w w' /\
    match x, y with
    | Some c, Some sc => stored_ok c ->
        (exists r, o = Ret r /\ verdict name expected c sc (seen r) /\
           (forall d, r = Ok d -> slice_ok d /\ len (sl_mem d) = sl_len d + 8)) \/
        (b = Debug /\ 16 <= len c /\ 2 ^ 64 <= header c + 16 /\ o = Panic)
    | _, _ => exists k, o = Ret (Er (EIo k name))
    end.
Proof.
  intros Hf MO Fx Fy. destruct (read b e st name expected w) as [o w'] eqn:R.
  exists o, w'. split; auto. destruct (read_cases _ _ _ _ _ _ _ _ MO R) as (RR & X). split; auto.
  destruct X as [(k & -> & X)|[(_ & _ & X)|[(_ & X)|(c & sc & Fc & Fsc & ->)]]].
  - destruct x as [c|]; [|eauto]. destruct y as [sc|]; [|eauto].
    exfalso. destruct X as [(_ & X)|[X|X]]; [congruence|eapply X; eauto|eapply X; eauto].
  - congruence.
  - exfalso. destruct X as [X|X]; eapply X; eauto.
  - assert (x = Some c) as -> by (eapply finds_fun; eauto).
    assert (y = Some sc) as -> by (eapply finds_fun; eauto).
    intros Sc. destruct (check_resource_cases b e name expected c sc Sc) as [(r & E & V & K)|(Hb & L & H & E)].
    + left. exists r. auto.
    + right. auto.
Qed.

(** Whatever fails, Ok is only returned for what the storage holds. *)
Lemma read_ok_sound b e st name expected w d w' : maps_ok w ->
  read b e st name expected w = (Ret (Ok d), w') ->
  exists c sc, finds st w name (Some c) /\ finds st w (schema_name name) (Some sc) /\
    (stored_ok c -> verdict name expected c sc (Ok (sl_bytes d)) /\ slice_ok d /\ len (sl_mem d) = sl_len d + 8).
Proof.
  intros MO R. destruct (read_cases _ _ _ _ _ _ _ _ MO R) as (RR & X).
  destruct X as [(k & E & X)|[(E & _)|[(E & X)|(c & sc & Fc & Fsc & E)]]]; try discriminate.
  exists c, sc. split; auto. split; auto. intros Sc.
  destruct (check_resource_cases b e name expected c sc Sc) as [(r & E' & V & K)|(Hb & L & H & E')];
    unfold checked in E; rewrite E' in E; [|discriminate].
  injection E as <-. split; auto.
Qed.

(** No undefined behaviour unless a mapped file was cut. *)
Lemma read_no_ub b e st name expected w o w' x y : maps_ok w ->
  finds st w name x -> finds st w (schema_name name) y -> (forall c, x = Some c -> stored_ok c) ->
  read b e st name expected w = (o, w') -> o <> UB.
Proof.
  intros MO Fx Fy Sx R. destruct (read_cases _ _ _ _ _ _ _ _ MO R) as (RR & X).
  destruct X as [(k & -> & X)|[(-> & _)|[(_ & X)|(c & sc & Fc & Fsc & ->)]]]; try discriminate.
  - exfalso. destruct X as [X|X]; eapply X; eauto.
  - assert (x = Some c) as -> by (eapply finds_fun; eauto).
    destruct (check_resource_cases b e name expected c sc (Sx c eq_refl)) as [(r & E' & V & K)|(Hb & L & H & E')];
      unfold checked; rewrite E'; discriminate.
Qed.

Lemma verdict_framed name expected d pad sc r : len pad = 8 ->
  verdict name expected (framed d pad) sc r ->
  utf8_ok sc = true -> sc = expected -> r = Ok d.
Proof.
  intros P V U E. inversion V; subst; auto; try congruence.
  - f_equal. eapply framed_inj; [symmetry|..]; eauto.
  - exfalso. eapply H; eauto.
Qed.

Lemma read_framed b e st name w d pad sch : w_faults w = [] -> maps_ok w ->
  finds st w name (Some (framed d pad)) -> len pad = 8 -> data_ok d -> bytes_ok pad ->
  finds st w (schema_name name) (Some sch) -> utf8_ok sch = true ->
  exists sl w', read b e st name sch w = (Ret (Ok sl), w') /\ sl_bytes sl = d /\ slice_ok sl /\
    len (sl_mem sl) = sl_len sl + 8 /\ reads (cells_of st name) w w'.
Proof.
  intros Hf MO Fd P (Bd & Ld) Bp Fs U.
  destruct (read_exact b e st name sch w _ _ Hf MO Fd Fs) as (o & w' & R & RR & X).
  assert (So : stored_ok (framed d pad)).
  { split; [|rewrite framed_len; lia]. unfold framed. apply bytes_ok_app. split; [apply le_bytes_ok|].
    apply bytes_ok_app; auto. }
  destruct (X So) as [(r & -> & V & K)|(_ & _ & H & _)].
  - apply verdict_framed in V; auto. destruct r as [sl|]; [|discriminate]. injection V as V.
    destruct (K sl eq_refl). exists sl, w'. auto.
  - rewrite header_framed in H; unfold isize_max in Ld; lia.
Qed.

(** * Written resources *)
Lemma resource_bytes_ok d : data_ok d -> stored_ok (resource_bytes d).
Proof.
  intros (B & L). split; [|unfold resource_bytes; rewrite framed_len; rewrite len_zeros by lia; lia].
  unfold resource_bytes, framed. apply bytes_ok_app. split; [apply le_bytes_ok|].
  apply bytes_ok_app; split; [auto|apply bytes_ok_zeros].
Qed.

Lemma unused_at_end st n w : unused st n w -> at_end st n w /\ (is_file st = false -> start st n w = []).
Proof.
  destruct st; simpl; [intros [-> _]; auto|split; [auto|discriminate]].
Qed.

Lemma fresh_start st n w : unused st n w -> at_end st n w /\ start st n w = [].
Proof. destruct st; simpl; [intros [-> _]; auto|auto]. Qed.

Lemma finds_cell st w n c : unused st n w -> forall w', same_caches w w' ->
  bytes_at (cell_at st n) w' = Some c -> (is_file st = true -> c <> []) -> finds st w' n (Some c).
Proof.
  intros Un w' (R & M) B N. destruct st as [id base|id base]; simpl in *.
  - destruct Un as (_ & Un). rewrite R, Un. auto.
  - rewrite M, Un, B. destruct c; auto. exfalso. apply N; auto.
Qed.

Lemma resource_bytes_nonempty d : resource_bytes d <> [].
Proof. intros H. apply (f_equal len) in H. unfold resource_bytes in H. rewrite framed_len in H.
  rewrite len_zeros, len_nil in H by lia. pose proof (len_nonneg d). lia. Qed.

Lemma same_caches_faults w w' l : same_caches w w' -> same_caches w (set_faults l w').
Proof. intros []. split; auto. Qed.

Lemma maps_ok_caches w w' : same_caches w w' -> maps_ok w -> maps_ok w'.
Proof. intros (_ & M). unfold maps_ok. rewrite M. auto. Qed.

Lemma bytes_at_set_faults c l w : bytes_at c (set_faults l w) = bytes_at c w.
Proof. destruct c; auto. Qed.

Lemma write_then_read b b' e e' st name schema data w w1 : maps_ok w -> fresh_name st name w ->
  schema_ok st schema -> data_ok data ->
  write b e st name schema data w = (Ret (Ok tt), w1) ->
  bytes_at (cell_at st name) w1 = Some (resource_bytes data) /\
  bytes_at (cell_at st (schema_name name)) w1 = Some schema /\
  exists sl w2, read b' e' st name schema (set_faults [] w1) = (Ret (Ok sl), w2) /\ sl_bytes sl = data /\
    slice_ok sl.
Proof.
  intros MO (U1 & U2) (Su & Sb & Sl & Sn) Do W.
  destruct (fresh_start _ _ _ U1) as (A1 & E1). destruct (fresh_start _ _ _ U2) as (A2 & E2).
  destruct (write_cases _ _ _ _ _ _ _ _ _ A1 A2 W) as ((T & C & _) & X).
  destruct X as [(_ & B1 & B2)|(_ & Fo & _)].
  2:{ destruct Fo as [(k & H)|H]; discriminate. }
  rewrite E1 in B1. rewrite E2 in B2. simpl in B1, B2. split; auto. split; auto.
  assert (C' := same_caches_faults _ _ [] C).
  destruct (read_framed b' e' st name (set_faults [] w1) data (zeros 8) schema) as (sl & w2 & R & Es & Os & _ & _); auto.
  - eapply maps_ok_caches; eauto.
  - apply (finds_cell st w name _ U1 _ C'); [rewrite bytes_at_set_faults; auto|].
    intros _. apply resource_bytes_nonempty.
  - apply bytes_ok_zeros.
  - apply (finds_cell st w _ _ U2 _ C'); [rewrite bytes_at_set_faults; auto|auto].
  - exists sl, w2. auto.
Qed.

Lemma write_progresses b e st name schema data w : w_faults w = [] ->
  at_end st name w -> at_end st (schema_name name) w ->
  ready st name w -> ready st (schema_name name) w ->
  exists w', write b e st name schema data w = (Ret (Ok tt), w').
Proof.
  intros Hf A1 A2 R1 R2. destruct (write b e st name schema data w) as [o w'] eqn:W.
  destruct (write_cases _ _ _ _ _ _ _ _ _ A1 A2 W) as (_ & X).
  destruct X as [(-> & _)|(_ & _ & N & _)]; eauto. exfalso. apply N; auto. split; auto.
Qed.

Lemma write_mem_progresses b e id base name schema data w :
  at_end (MemStorage id base) name w -> at_end (MemStorage id base) (schema_name name) w ->
  exists w', write b e (MemStorage id base) name schema data w = (Ret (Ok tt), w').
Proof.
  intros A1 A2. destruct (write b e (MemStorage id base) name schema data w) as [o w'] eqn:W.
  destruct (write_cases _ _ _ _ _ _ _ _ _ A1 A2 W) as (_ & X).
  destruct X as [(-> & _)|(F & _)]; [eauto|discriminate].
Qed.

(** * Readers in a new process *)
Definition reader_world (w : world) : world :=
  set_next 1 (set_maps (nupd 0 (fun _ => None) (w_maps (restart w))) (restart w)).
Lemma fresh_read_eq b e base name expected w :
  fresh_read b e base name expected w = fst (read b e (FileStorage 0 base) name expected (reader_world w)).
Proof. reflexivity. Qed.

Definition on_file (x : option (list Z)) : option (list Z) := match x with Some [] => None | y => y end.

Lemma fresh_finds base w n :
  finds (FileStorage 0 base) (reader_world w) n (on_file (w_files w (res_key (FileStorage 0 base) n))).
Proof. unfold finds. simpl. destruct (w_files w _) as [[|]|]; auto. Qed.

Lemma reader_world_ok w : maps_ok (reader_world w).
Proof. intros id p l. simpl. unfold nupd. destruct (Nat.eqb id 0); discriminate. Qed.

Lemma file_key id id' base n : res_key (FileStorage id base) n = res_key (FileStorage id' base) n.
Proof. reflexivity. Qed.

(** The result depends on the two files only. *)
Definition fresh_result (b : build) (e : endian) (name : string) (expected : list Z)
    (x y : option (list Z)) (o : outcome (result slice rs_error)) : Prop :=
  match x, y with
  | Some c, Some sc => o = checked b e name expected c sc
  | _, _ => exists k, o = Ret (Er (EIo k name))
  end.

Lemma fresh_read_cases b e base name expected w :
  fresh_result b e name expected (on_file (w_files w (res_key (FileStorage 0 base) name)))
    (on_file (w_files w (res_key (FileStorage 0 base) (schema_name name))))
    (fresh_read b e base name expected w).
Proof.
  rewrite fresh_read_eq. destruct (read _ _ _ _ _ _) as [o w'] eqn:R. simpl.
  destruct (read_cases _ _ _ _ _ _ _ _ (reader_world_ok w) R) as (_ & X).
  assert (F1 := fresh_finds base w name). assert (F2 := fresh_finds base w (schema_name name)).
  unfold fresh_result.
  destruct X as [(k & -> & X)|[(_ & _ & X)|[(_ & X)|(c & sc & Fc & Fsc & ->)]]].
  - destruct (on_file _) as [c|]; [|eauto]. destruct (on_file _) as [sc|]; [|eauto].
    exfalso. destruct X as [(_ & X)|[X|X]]; [apply X; auto|eapply X; eauto|eapply X; eauto].
  - exfalso. apply X. auto.
  - exfalso. destruct X as [X|X]; eapply X; eauto.
  - rewrite <- (finds_fun _ _ _ _ _ Fc F1), <- (finds_fun _ _ _ _ _ Fsc F2). auto.
Qed.

Lemma fresh_read_framed b e base name w d sch :
  w_files w (res_key (FileStorage 0 base) name) = Some (resource_bytes d) ->
  w_files w (res_key (FileStorage 0 base) (schema_name name)) = Some sch ->
  data_ok d -> sch <> [] -> utf8_ok sch = true ->
  exists sl, fresh_read b e base name sch w = Ret (Ok sl) /\ sl_bytes sl = d /\ slice_ok sl.
Proof.
  intros F1 F2 Do Ns U. assert (X := fresh_read_cases b e base name sch w). rewrite F1, F2 in X.
  unfold on_file in X. destruct (resource_bytes d) eqn:E; [exfalso; eapply resource_bytes_nonempty; eauto|].
  destruct sch as [|s0 sch0] eqn:Es; [congruence|]. rewrite <- E, <- Es in *. simpl in X. 
  unfold checked in X. clear E Es.
  destruct (check_resource_cases b e name sch (resource_bytes d) sch (resource_bytes_ok d Do))
    as [(r & E' & V & K)|(_ & _ & H & _)].
  - rewrite E' in X. apply verdict_framed in V; auto. destruct r as [sl|]; [|discriminate].
    injection V as V. exists sl. split; auto. split; auto. apply K; auto.
  - unfold resource_bytes in H. rewrite header_framed in H; destruct Do; unfold isize_max in *; lia.
Qed.

(** A proper prefix of a resource is not a resource. *)
Lemma prefix_framed d p q d' pad : data_ok d -> resource_bytes d = p ++ q -> p = framed d' pad -> len pad = 8 ->
  p = resource_bytes d /\ d' = d.
Proof.
  intros (Bd & Ld) E Ep Pl. unfold isize_max in Ld.
  assert (L16 : len p = 16 + len d') by (rewrite Ep, framed_len; lia).
  pose proof (len_nonneg d'). pose proof (len_nonneg q). pose proof (len_nonneg d).
  assert (Lf : len p + len q = 16 + len d).
  { rewrite <- len_app, <- E. unfold resource_bytes. rewrite framed_len, len_zeros by lia. lia. }
  assert (Hp : header p = len d').
  { rewrite Ep. apply header_framed. lia. }
  assert (Hh : header (resource_bytes d) = header p).
  { unfold header. rewrite E. rewrite firstn_app. replace (8 - length p)%nat with 0%nat by (unfold len in *; lia).
    rewrite firstn_O, app_nil_r. auto. }
  unfold resource_bytes in Hh. rewrite header_framed in Hh by lia.
  assert (q = []) as -> by (destruct q; auto; rewrite len_cons in *; pose proof (len_nonneg q); lia).
  rewrite app_nil_r in E. split; auto. rewrite Ep in E. unfold resource_bytes in E.
  symmetry. eapply framed_inj; eauto.
Qed.

Lemma prefix_header d p q : data_ok d -> resource_bytes d = p ++ q -> 16 <= len p -> header p = len d.
Proof.
  intros (Bd & Ld) E L. unfold isize_max in Ld.
  assert (Hh : header (resource_bytes d) = header p).
  { unfold header. rewrite E. rewrite firstn_app. replace (8 - length p)%nat with 0%nat by (unfold len in *; lia).
    rewrite firstn_O, app_nil_r. auto. }
  unfold resource_bytes in Hh. rewrite header_framed in Hh by lia. auto.
Qed.

Lemma stored_ok_prefix p q : stored_ok (p ++ q) -> stored_ok p.
Proof.
  intros (B & L). apply bytes_ok_app in B. rewrite len_app in L. pose proof (len_nonneg q).
  split; [tauto|lia].
Qed.

(** Checks on a prefix of a written resource. *)
Lemma checked_prefix b e name expected d p q sc : data_ok d -> resource_bytes d = p ++ q ->
  (exists sl, checked b e name expected p sc = Ret (Ok sl) /\ sl_bytes sl = d /\ p = resource_bytes d /\ sc = expected) \/
  (exists x, checked b e name expected p sc = Ret (Er x)).
Proof.
  intros Do E. assert (So : stored_ok p) by (eapply stored_ok_prefix; rewrite <- E; apply resource_bytes_ok; auto).
  unfold checked. destruct (check_resource_cases b e name expected p sc So) as [(r & -> & V & K)|(_ & L & H & _)].
  - destruct r as [sl|x]; [|eauto]. left. exists sl. split; auto. simpl in V. inversion V; subst.
    destruct (prefix_framed d _ q (sl_bytes sl) pad Do E eq_refl) as (A & B); auto.
  - rewrite (prefix_header d p q) in H by auto. destruct Do. unfold isize_max in *. lia.
Qed.

(** After a write that did not succeed, a new process finds the new data, an
    error, or exactly what it would have found before. *)
Lemma failed_write_fresh_read b e id base name schema data w o w' :
  write b e (FileStorage id base) name schema data w = (o, w') -> failed o -> data_ok data ->
  forall b' e' expected,
  let r := fresh_read b' e' base name expected w' in
  (exists d, r = Ret (Ok d) /\ sl_bytes d = data) \/
  (exists x, r = Ret (Er x)) \/
  r = fresh_read b' e' base name expected w.
Proof.
  intros W Fo Do b' e' expected r. set (st := FileStorage id base) in *.
  destruct (write_cases b e st name schema data w o w' I I W) as (_ & X).
  destruct X as [(-> & _)|(_ & _ & _ & X)].
  { destruct Fo as [(k & H)|H]; discriminate. }
  assert (Hr := fresh_read_cases b' e' base name expected w'). fold r in Hr.
  assert (Hw := fresh_read_cases b' e' base name expected w).
  assert (Ek : res_key (FileStorage 0 base) name = res_key st name) by reflexivity.
  assert (Es : res_key (FileStorage 0 base) (schema_name name) = res_key st (schema_name name)) by reflexivity.
  rewrite Ek, Es in *. destruct X as [(B1 & B2)|[(p & q & Ep & B1 & B2)|(p & q & Ep & B1 & B2)]]; simpl in B1, B2.
  - fold st in B1, B2. rewrite B1, B2 in Hr. unfold fresh_result in *.
    destruct (on_file (w_files w (res_key st name))); [destruct (on_file (w_files w (res_key st (schema_name name))))|].
    + right. right. congruence.
    + right. left. destruct Hr; eauto.
    + right. left. destruct Hr; eauto.
  - fold st in B1, B2. rewrite B1 in Hr. unfold fresh_result in Hr.
    destruct p as [|p0 p'] eqn:Epp; [right; left; destruct Hr; eauto|]. rewrite <- Epp in *. clear Epp.
    destruct (on_file _) as [c|] eqn:E0 in Hr; [|right; left; destruct Hr; eauto].
    destruct (on_file _) as [sc|] in Hr; [|right; left; destruct Hr; eauto].
    assert (c = p) as -> by (destruct p; simpl in E0; congruence).
    destruct (checked_prefix b' e' name expected data p q sc Do Ep) as [(sl & E & D & _)|(x & E)];
      rewrite E in Hr; rewrite Hr; eauto.
  - fold st in B1, B2. rewrite B1 in Hr. unfold fresh_result in Hr.
    destruct (on_file (Some (resource_bytes data))) as [c|] eqn:E0; [|right; left; destruct Hr; eauto].
    destruct (on_file _) as [sc|] in Hr; [|right; left; destruct Hr; eauto].
    assert (c = resource_bytes data) as -> by (destruct (resource_bytes data); simpl in E0; congruence).
    destruct (checked_prefix b' e' name expected data (resource_bytes data) [] sc Do) as [(sl & E & D & _)|(x & E)];
      [rewrite app_nil_r; auto| |]; rewrite E in Hr; rewrite Hr; eauto.
Qed.

(** * Programs keep what readers have cached *)
Definition keeps (w w' : world) : Prop :=
  (w_next w <= w_next w')%nat /\
  (forall id k c, (id < w_next w)%nat -> w_resources w id k = Some c -> w_resources w' id k = Some c) /\
  (forall id p l, (id < w_next w)%nat -> w_maps w id p = Some l -> w_maps w' id p = Some l) /\
  (maps_ok w -> maps_ok w') /\
  (w_faults w = [] -> w_faults w' = []).

Lemma keeps_refl w : keeps w w.
Proof. repeat split; auto. Qed.
Lemma keeps_trans w1 w2 w3 : keeps w1 w2 -> keeps w2 w3 -> keeps w1 w3.
Proof.
  intros (A & B & C & D & E) (A' & B' & C' & D' & E'). split; [lia|]. split.
  - intros id k c H R. apply B'; [lia|]. auto.
  - split; [intros id p l H R; apply C'; [lia|]; auto|]. auto.
Qed.

Lemma step_keeps P w w' : step P w w' -> keeps w w'.
Proof.
  intros ((_ & _ & _ & N & _) & (R & M) & C). unfold keeps, maps_ok. rewrite N, R, M. repeat split; auto.
Qed.

Lemma reading_keeps st n w w' : maps_ok w -> read_resource st n w = (fst (read_resource st n w), w') -> keeps w w'.
Proof.
  intros MO. destruct st as [id base|id base].
  - simpl. set (k := res_key (MemStorage id base) n).
    destruct (w_resources w id k) eqn:E; [intros [= <-]; apply keeps_refl|].
    destruct (w_streams w id k) as [[c p]|]; intros [= <-]; [|apply keeps_refl].
    split; auto. split; [|repeat split; auto]. simpl. intros id0 k0 c0 _ R.
    destruct (Nat.eq_dec id0 id) as [->|N]; [|rewrite nupd_other; auto].
    rewrite nupd_same. rewrite kupd_other; auto. congruence.
  - set (st := FileStorage id base). intros R.
    assert (forall o, read_resource st n w = (o, w') -> keeps w w'); eauto. clear R. intros o R.
    destruct (read_resource_cases st n w o w' MO R) as ((_ & C & _ & _ & _ & M & _) & _).
    unfold read_resource, st in R. fold st in R. unfold mbind, path_exists, mbind in R.
    set (act := fun w0 : world => (Ret (Ok (on_disk (res_key st n) w0)), w0)) in R.
    assert (K1 : keeps w (set_faults (tl (w_faults w)) w)) by (apply (step_keeps nothing), step_fault).
    destruct (syscall_eq act w) as [(w1 & E1 & E)|(Hf & o1 & E & X)]; rewrite E in R.
    2:{ destruct X as [(k & ->)| ->]; injection R as <- <-; auto. }
    subst w1. unfold act in R. set (w1 := set_faults (tl (w_faults w)) w) in *. unfold mret in R.
    destruct (on_disk _ w1); [|injection R as <- <-; auto]. unfold mmap_read in R.
    destruct (w_maps w1 id (res_path st n)) eqn:Em; [injection R as <- <-; auto|].
    set (act2 := fun w0 : world => match w_files w0 _ with None => _ | Some c => _ end) in R.
    assert (K2 : keeps w (set_faults (tl (w_faults w1)) w1)).
    { eapply keeps_trans; [exact K1|]. apply (step_keeps nothing), step_fault. }
    destruct (syscall_eq act2 w1) as [(w2 & E1 & E2)|(Hf & o1 & E2 & X)]; rewrite E2 in R.
    2:{ destruct X as [(k & ->)| ->]; injection R as <- <-; auto. }
    subst w2. unfold act2 in R. set (w2 := set_faults (tl (w_faults w1)) w1) in *.
    destruct (w_files w2 _) as [c|]; [|injection R as <- <-; auto].
    destruct (len c =? 0); injection R as <- <-; auto.
    destruct K2 as (A & B & D & F & G). split; auto. split; [auto|]. split; [|split; auto].
    intros id0 p l Hid Hm. simpl. destruct (Nat.eq_dec id0 id) as [->|N]; [|rewrite nupd_other; auto].
    rewrite nupd_same. rewrite supd_other; auto. intros ->. simpl in Em. congruence.
Qed.

Lemma api_keeps A (m : M A) : api m -> forall w o w', maps_ok w -> m w = (o, w') -> keeps w w'.
Proof.
  induction 1 as [A a|A o0|A B m f Hm IHm Hf IHf|base|base|st n|st n|st n|s d|s]; intros w o w' MO R.
  - injection R as <- <-. apply keeps_refl.
  - injection R as <- <-. apply keeps_refl.
  - unfold mbind in R. destruct (m w) as [o1 w1] eqn:E. assert (K1 := IHm _ _ _ MO E).
    destruct o1 as [a| | |]; try (injection R as <- <-; exact K1).
    eapply keeps_trans; [exact K1|]. eapply IHf; eauto. apply K1. auto.
  - injection R as <- <-. split; simpl; [lia|]. split; [|split; [auto|split; auto]].
    intros id k c H. rewrite nupd_other by lia. auto.
  - injection R as <- <-. split; simpl; [lia|]. split; [auto|]. split.
    + intros id k c H. rewrite nupd_other by lia. auto.
    + split; auto. intros MO' id p l. simpl. unfold nupd. destruct (Nat.eqb id (w_next w)); [discriminate|apply MO].
  - destruct st; simpl in R.
    + injection R as <- <-. apply keeps_refl.
    + apply path_exists_cases in R. eapply step_keeps. apply R.
  - eapply reading_keeps; eauto. rewrite R. auto.
  - destruct (create_step _ _ _ _ _ R). eapply step_keeps; eauto.
  - destruct (write_all_wstep _ _ _ _ _ R) as ((S & _) & _). eapply step_keeps; eauto.
  - destruct (seek_start_wstep _ _ _ _ R) as ((S & _) & _). eapply step_keeps; eauto.
Qed.

(** The functions of the model are such programs. *)
Ltac api_tac := repeat first
  [ apply api_ret | apply api_lift | apply api_mem_new | apply api_file_new | apply api_exists
  | apply api_read | apply api_create | apply api_write | apply api_seek
  | (apply api_bind; [|intros]) ].

Lemma api_try {A B E F} (conv : E -> F) (m : M (result A E)) (f : A -> M (result B F)) :
  api m -> (forall a, api (f a)) -> api (mtry conv m f).
Proof. intros. unfold mtry. apply api_bind; auto. intros [a|]; auto. api_tac. Qed.
Lemma api_stry {B} m (f : stream -> M (result B io_kind)) : api m -> (forall s, api (f s)) -> api (stry m f).
Proof. intros. unfold stry. apply api_bind; auto. intros [[|] s]; auto. api_tac. Qed.

Lemma api_write_size b e v s : api (write_size b e v s).
Proof. unfold write_size. api_tac. Qed.

Lemma api_write_res b e st n schema data : api (write b e st n schema data).
Proof.
  unfold write. apply api_try; [api_tac|intros]. apply api_try.
  - unfold write_to_stream. apply api_stry; [apply api_write_size|intros].
    apply api_stry; [api_tac|intros]. apply api_stry; [apply api_write|intros; api_tac].
  - intros. apply api_try; [api_tac|intros]. apply api_stry; [api_tac|intros; api_tac].
Qed.

Lemma api_read_res b e st n schema : api (read b e st n schema).
Proof. unfold read. apply api_try; [api_tac|intros]. apply api_try; [api_tac|intros]. api_tac. Qed.

Lemma api_create_archive b e st n schema : api (create_archive b e st n schema).
Proof.
  unfold create_archive. apply api_bind; [api_tac|intros []]; [api_tac|].
  apply api_try; [apply api_write_res|intros; api_tac].
Qed.

(** * Reads are stable *)
Lemma mem_read_stable A (m : M A) id base name w sl w1 o w2 : maps_ok w -> (id < w_next w)%nat -> api m ->
  read_resource (MemStorage id base) name w = (Ret (Ok sl), w1) -> m w1 = (o, w2) ->
  read_resource (MemStorage id base) name w2 = (Ret (Ok sl), w2).
Proof.
  intros MO Hid Ha R Hm.
  destruct (read_resource_cases _ _ _ _ _ MO R) as ((T & _ & _ & _ & _ & MO1 & _) & _).
  assert (K := api_keeps _ m Ha w1 o w2 (MO1 MO) Hm).
  assert (N1 : w_next w1 = w_next w) by apply T.
  simpl in *. set (k := res_key (MemStorage id base) name) in *.
  assert (exists c, w_resources w1 id k = Some c /\ sl = whole c) as (c & Rc & ->).
  { destruct (w_resources w id k) eqn:E; [injection R as <- <-; eauto|].
    destruct (w_streams w id k) as [[c p]|]; [|discriminate]. injection R as <- <-.
    exists c. simpl. rewrite nupd_same, kupd_same. auto. }
  destruct K as (_ & K & _). rewrite (K id k c) by (auto; lia). auto.
Qed.

Lemma file_read_stable A (m : M A) id base name w sl w1 o w2 : maps_ok w -> (id < w_next w)%nat -> api m ->
  read_resource (FileStorage id base) name w = (Ret (Ok sl), w1) -> m w1 = (o, w2) ->
  w_files w2 (res_key (FileStorage id base) name) = w_files w1 (res_key (FileStorage id base) name) ->
  exists w3, read_resource (FileStorage id base) name (set_faults [] w2) = (Ret (Ok sl), w3).
Proof.
  intros MO Hid Ha R Hm Hfile. set (st := FileStorage id base) in *.
  destruct (read_resource_cases _ _ _ _ _ MO R) as ((T & _ & Ff & _ & _ & MO1 & _) & X).
  assert (K := api_keeps _ m Ha w1 o w2 (MO1 MO) Hm).
  assert (N1 : w_next w1 = w_next w) by apply T.
  destruct X as (X & _). destruct (X sl eq_refl) as (c & -> & Fc).
  assert (exists l, w_maps w1 id (res_path st name) = Some l) as (l & Ml).
  { unfold read_resource, st in R. fold st in R. unfold mbind, path_exists, mbind in R.
    set (act := fun w0 : world => (Ret (Ok (on_disk (res_key st name) w0)), w0)) in R.
    destruct (syscall_eq act w) as [(w1' & E1 & E)|(Hf & o1 & E & Y)]; rewrite E in R.
    2:{ destruct Y as [(k & ->)| ->]; discriminate. }
    subst w1'. unfold act, mret in R.
    destruct (on_disk _ _); [|discriminate]. unfold mmap_read in R.
    destruct (w_maps _ id (res_path st name)) eqn:Em; [injection R as _ <-; eauto|].
    set (act2 := fun w0 : world => match w_files w0 _ with None => _ | Some c => _ end) in R.
    destruct (syscall_eq act2 (set_faults (tl (w_faults w)) w)) as [(w2' & E1 & E2)|(Hf & o1 & E2 & Y)]; rewrite E2 in R.
    2:{ destruct Y as [(k & ->)| ->]; discriminate. }
    subst w2'. unfold act2 in R. destruct (w_files _ _) as [c'|]; [|discriminate].
    destruct (len c' =? 0); [discriminate|]. injection R as _ <-. simpl.
    rewrite nupd_same, supd_same. eauto. }
  assert (F1 : finds st w1 name (Some c)).
  { destruct (read_resource_cases _ _ _ _ _ MO R) as ((_ & _ & _ & _ & _ & _ & N) & _). auto. }
  assert (F2 : finds st (set_faults [] w2) name (Some c)).
  { simpl in *. fold st in F1, Hfile |- *. destruct K as (_ & _ & K & _).
    rewrite (K id (res_path st name) l) by (auto; lia). rewrite Ml in F1. rewrite Hfile. auto. }
  destruct (read_resource st name (set_faults [] w2)) as [o3 w3] eqn:R3.
  assert (MO2 : maps_ok (set_faults [] w2)) by (apply K; auto).
  destruct (read_resource_cases _ _ _ _ _ MO2 R3) as (_ & Y).
  destruct Y as (_ & Y & _). rewrite (Y (Some c) eq_refl F2). eauto.
Qed.

(** * create_archive *)

Lemma bind_ret {A B} (m : M A) (f : A -> M B) w y w' : mbind m f w = (Ret y, w') ->
  exists x w1, m w = (Ret x, w1) /\ f x w1 = (Ret y, w').
Proof. unfold mbind. destruct (m w) as [[x| | |] w1]; intros H; try discriminate H. eauto. Qed.
Lemma exists_eq st name w : w_faults w = [] -> exists_ st name w = (Ret (present st name w), w).
Proof.
  intros Hf. destruct st; simpl.
  - destruct (w_resources w _ _), (w_streams w _ _); auto.
  - unfold path_exists, mbind, syscall, next_fault. rewrite Hf. auto.
Qed.

Lemma create_archive_exists b e st aname aschema w : w_faults w = [] ->
  present st (signature_name aname) w = true ->
  create_archive b e st aname aschema w = (Ret (Er (EIo KAlreadyExists (signature_name aname))), w).
Proof. intros Hf P. unfold create_archive, mbind. rewrite exists_eq, P by auto. auto. Qed.

Lemma create_archive_new b e st aname aschema w : w_faults w = [] -> maps_ok w ->
  present st (signature_name aname) w = false ->
  fresh_name st (signature_name aname) w -> schema_ok st aschema ->
  ready st (signature_name aname) w -> ready st (schema_name (signature_name aname)) w ->
  exists w1, create_archive b e st aname aschema w = (Ret (Ok tt), w1) /\
    present st (signature_name aname) w1 = true /\
    exists sl w2, read b e st (signature_name aname) aschema w1 = (Ret (Ok sl), w2) /\ sl_bytes sl = [].
Proof.
  intros Hf MO P F S R1 R2. unfold create_archive, mbind, mtry, mbind. rewrite exists_eq, P by auto.
  destruct F as (U1 & U2) eqn:EF. 
  destruct (write_progresses b e st (signature_name aname) aschema [] w Hf) as (w1 & W); auto;
    try (apply fresh_start; auto).
  rewrite W. exists w1. split; [reflexivity|].
  destruct (write_then_read b b e e st (signature_name aname) aschema [] w w1 MO F S) as (B1 & B2 & sl & w2 & R & E & _); auto.
  { split; [constructor|]. rewrite len_nil. unfold isize_max. lia. }
  assert (Hf1 : w_faults w1 = []).
  { destruct (write_touches _ _ _ _ _ _ _ _ _ W) as (_ & _ & C). auto. }
  assert (set_faults [] w1 = w1) as Es by (destruct w1; simpl in *; subst; auto).
  rewrite Es in R. split; eauto. destruct st as [id base|id base]; simpl in *.
  - destruct (w_resources w1 _ _); auto. destruct (w_streams w1 _ _); auto. discriminate.
  - unfold on_disk. rewrite B1. auto.
Qed.

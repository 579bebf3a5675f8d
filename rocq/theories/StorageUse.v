(** Facts about using storages: isolation, rewriting, sub-directories, nested
    keys, crashes and schemas. *)
From Verif Require Import Base BaseFacts Codec CodecSpec CodecFacts Storage PathFacts StorageSpec StorageFacts StorageMore.
Local Open Scope list_scope.
Local Open Scope Z_scope.

(** * Isolation *)
Lemma no_dot_app a b : no_dot (a ++ b) = no_dot a && no_dot b.
Proof. induction a; simpl; auto. rewrite IHa, andb_assoc. auto. Qed.

Lemma identifier_valid n : identifier n -> valid_name n.
Proof. intros (A & B & C). repeat split; auto. intros ->. discriminate. Qed.


Lemma identifiers_unrelated n m : identifier n -> identifier m -> n <> m -> unrelated n m.
Proof.
  intros (_ & _ & A) (_ & _ & B) N. repeat split; auto; unfold schema_name; intros ->;
    rewrite no_dot_app, andb_false_r in *; discriminate.
Qed.

Lemma cell_at_inj st n m : valid_name n -> valid_name m -> cell_at st n = cell_at st m -> n = m.
Proof.
  intros Hn Hm H. apply (res_key_inj st n m Hn Hm). destruct st; simpl in H; congruence.
Qed.

Lemma unrelated_cells st n m : valid_name n -> valid_name m -> unrelated n m ->
  ~ cells_of st n (cell_at st m) /\ ~ cells_of st n (cell_at st (schema_name m)).
Proof.
  intros Hn Hm (A & B & C). assert (Hn' := valid_schema n Hn). assert (Hm' := valid_schema m Hm).
  split; intros [H|H]; apply cell_at_inj in H; auto.
  unfold schema_name in H. apply sapp_inj_r in H. auto.
Qed.

Lemma apart_cell st st' n m : valid_name n -> valid_name m -> apart st st' -> cell_at st n <> cell_at st' m.
Proof.
  intros Hn Hm A E. assert (K : res_key st n = res_key st' m -> key_of (st_base st) = key_of (st_base st')).
  { intros H. rewrite <- (parent_res_key st n), <- (parent_res_key st' m), H; auto. }
  assert (E2 : res_key st n = res_key st' m) by (destruct st, st'; simpl in E; congruence).
  apply K in E2. destruct st, st'; simpl in E, E2, A; try discriminate; [|contradiction].
  destruct A as [A|A]; [|contradiction]. congruence.
Qed.

Lemma apart_cells st st' n m : valid_name n -> valid_name m -> apart st st' ->
  ~ cells_of st n (cell_at st' m) /\ ~ cells_of st n (cell_at st' (schema_name m)).
Proof.
  intros Hn Hm A. assert (Hn' := valid_schema n Hn). assert (Hm' := valid_schema m Hm).
  split; intros [H|H]; symmetry in H; revert H; apply apart_cell; auto.
Qed.


Lemma touches_undisturbed P st m w w' : touches P w w' ->
  ~ P (cell_at st m) -> ~ P (cell_at st (schema_name m)) -> undisturbed st m w w'.
Proof.
  intros T A B n Hn. assert (~ P (cell_at st n)) as N by (destruct Hn; subst; auto).
  split; [eapply bytes_at_touches; eauto|]. intros x. split.
  - eapply finds_touches_back; eauto.
  - eapply finds_touches; eauto.
Qed.

Lemma write_undisturbed b e st st' n m schema data w o w' : valid_name n -> valid_name m ->
  (st = st' /\ unrelated n m \/ apart st st') ->
  write b e st n schema data w = (o, w') -> undisturbed st' m w w'.
Proof.
  intros Hn Hm H W. destruct (write_touches _ _ _ _ _ _ _ _ _ W) as (T & _).
  destruct H as [(<- & U)|A].
  - destruct (unrelated_cells st n m Hn Hm U). eapply touches_undisturbed; eauto.
  - destruct (apart_cells st st' n m Hn Hm A). eapply touches_undisturbed; eauto.
Qed.

(** * Rewriting *)
Lemma file_rewrite b e id base name schema data w w' : schema_ok (FileStorage id base) schema -> data_ok data ->
  write b e (FileStorage id base) name schema data w = (Ret (Ok tt), w') ->
  forall b' e', exists sl, fresh_read b' e' base name schema w' = Ret (Ok sl) /\ sl_bytes sl = data.
Proof.
  intros (S1 & S2 & S3 & S4) D W b' e'.
  destruct (write_cases b e (FileStorage id base) name schema data w (Ret (Ok tt)) w' I I W) as (_ & X).
  destruct X as [(_ & B1 & B2)|(_ & F & _)]; [|destruct F as [(k & ?)|?]; discriminate].
  simpl in B1, B2. destruct (fresh_read_framed b' e' base name w' data schema) as (sl & R & E & _); eauto.
Qed.

(** Writing leaves the cursor of every memory entry at its end. *)
Definition end_at (id : nat) (k : key) (w : world) : Prop :=
  match w_streams w id k with Some (c, p) => p = len c | None => True end.

Lemma end_at_touches P id k w w' : touches P w w' -> ~ P (CMem id k) -> end_at id k w -> end_at id k w'.
Proof. intros T N. unfold end_at. destruct T as (T & _). destruct (T id k N) as (-> & _). auto. Qed.

Lemma write_all_end s d w o w' id k : write_all s d w = (o, w') -> end_at id k w -> end_at id k w'.
Proof.
  intros R E. destruct (write_all_wstep _ _ _ _ _ R) as (((T & _) & _) & _).
  destruct s as [i q|q p].
  2:{ eapply end_at_touches; [exact T| |exact E]. discriminate. }
  destruct (Nat.eq_dec i id) as [->|N1];
    [destruct (key_eq_dec q k) as [->|N2]|];
    try (eapply end_at_touches; [exact T| |exact E]; simpl; congruence).
  unfold end_at in *. simpl in R. destruct (w_streams w id k) as [[c p]|] eqn:Ew.
  - injection R as <- <-. simpl. rewrite nupd_same, kupd_same. subst p. rewrite splice_end, len_app. auto.
  - injection R as <- <-. rewrite Ew. auto.
Qed.

Lemma create_end st n w o w' id k : create_output_stream st n w = (o, w') -> end_at id k w -> end_at id k w'.
Proof.
  intros R E. destruct (create_step _ _ _ _ _ R) as ((T & _) & _).
  destruct st as [i base|i base].
  2:{ eapply end_at_touches; [exact T| |exact E]. discriminate. }
  simpl in R. set (q := res_key (MemStorage i base) n) in *. injection R as <- <-.
  destruct (w_streams w i q) eqn:Ew; auto. unfold end_at in *. simpl.
  destruct (Nat.eq_dec id i) as [->|N]; [rewrite nupd_same|rewrite nupd_other; auto].
  destruct (key_eq_dec k q) as [->|N]; [rewrite kupd_same; reflexivity|rewrite kupd_other; auto].
Qed.

Lemma stry_end {B} (m : M (result unit io_kind * stream)) (f : stream -> M (result B io_kind)) id k :
  (forall w o w', m w = (o, w') -> end_at id k w -> end_at id k w') ->
  (forall s w o w', f s w = (o, w') -> end_at id k w -> end_at id k w') ->
  forall w o w', stry m f w = (o, w') -> end_at id k w -> end_at id k w'.
Proof.
  intros H1 H2 w o w' R E. unfold stry, mbind in R. destruct (m w) as [o1 w1] eqn:Em.
  assert (E1 := H1 _ _ _ Em E). destruct o1 as [[[a|x] s]| | |]; try (injection R as <- <-; exact E1).
  eapply H2; eauto.
Qed.

Lemma write_size_end b e v s w o w' id k : write_size b e v s w = (o, w') -> end_at id k w -> end_at id k w'.
Proof.
  unfold write_size, mbind, lift. intros R E.
  destruct (write_bytes _ _ _ _ _ _ _); try (injection R as <- <-; exact E). eapply write_all_end; eauto.
Qed.

Lemma write_end b e st n schema data w o w' id k :
  write b e st n schema data w = (o, w') -> end_at id k w -> end_at id k w'.
Proof.
  intros R E. unfold write, mtry, mbind in R.
  destruct (create_output_stream st n w) as [o1 w1] eqn:E1. assert (X1 := create_end _ _ _ _ _ id k E1 E).
  destruct o1 as [[s|]| | |]; try (injection R as <- <-; exact X1).
  destruct (write_to_stream b e data s w1) as [o2 w2] eqn:E2.
  assert (X2 : end_at id k w2).
  { unfold write_to_stream in E2. revert E2 X1. apply stry_end; [intros *; apply write_size_end|intros s1].
    apply stry_end; [intros *; apply write_all_end|intros s2].
    apply stry_end; [intros *; apply write_all_end|]. intros s3 w0 o0 w0' [= <- <-]. auto. }
  destruct o2 as [[u|]| | |]; try (injection R as <- <-; exact X2).
  destruct (create_output_stream st (schema_name n) w2) as [o3 w3] eqn:E3. assert (X3 := create_end _ _ _ _ _ id k E3 X2).
  destruct o3 as [[s3|]| | |]; try (injection R as <- <-; exact X3).
  unfold write_schema in R. revert R X3. apply stry_end; [intros *; apply write_all_end|].
  intros s4 w0 o0 w0' [= <- <-]. auto.
Qed.

Lemma mem_at_end id base n w : end_at id (res_key (MemStorage id base) n) w -> at_end (MemStorage id base) n w.
Proof. auto. Qed.

Lemma mem_start id base n w c : bytes_at (cell_at (MemStorage id base) n) w = Some c ->
  start (MemStorage id base) n w = c.
Proof. simpl. destruct (w_streams w _ _) as [[c' p]|]; simpl; congruence. Qed.

Lemma header_app p q : 8 <= len p -> header (p ++ q) = header p.
Proof. intros H. unfold header. rewrite firstn_app. unfold len in H.
  replace (8 - List.length p)%nat with 0%nat by lia. rewrite firstn_O, app_nil_r. auto. Qed.

Lemma resource_header d : data_ok d -> header (resource_bytes d) = len d.
Proof.
  intros D. apply (prefix_header d _ []); auto; [rewrite app_nil_r; auto|].
  unfold resource_bytes. rewrite framed_len, len_zeros by lia. pose proof (len_nonneg d). lia.
Qed.

Lemma mem_rewrite b e id base name s1 s2 d1 d2 w w1 w2 : maps_ok w -> w_faults w = [] ->
  fresh_name (MemStorage id base) name w -> data_ok d1 -> data_ok d2 ->
  len d1 + len d2 + 32 <= isize_max ->
  write b e (MemStorage id base) name s1 d1 w = (Ret (Ok tt), w1) ->
  write b e (MemStorage id base) name s2 d2 w1 = (Ret (Ok tt), w2) ->
  forall b' e' expected, exists w3,
    read b' e' (MemStorage id base) name expected w2 = (Ret (Er EUnexpectedDataSize), w3).
Proof.
  intros MO Hf (U1 & U2) D1 D2 HL W1 W2 b' e' expected. set (st := MemStorage id base) in *.
  destruct (fresh_start _ _ _ U1) as (A1 & S1). destruct (fresh_start _ _ _ U2) as (A2 & S2).
  destruct (write_cases b e st name s1 d1 w _ w1 A1 A2 W1) as (T1 & [(_ & B1 & B1')|(F & _)]); [|discriminate].
  rewrite S1 in B1. rewrite S2 in B1'. simpl app in B1, B1'.
  assert (A3 : at_end st name w1) by (apply mem_at_end; eapply write_end; eauto; exact A1).
  assert (A4 : at_end st (schema_name name) w1) by (apply mem_at_end; eapply write_end; eauto; exact A2).
  destruct (write_cases b e st name s2 d2 w1 _ w2 A3 A4 W2) as (T2 & [(_ & B2 & B2')|(F & _)]); [|discriminate].
  assert (S3 : start st name w1 = resource_bytes d1) by (apply mem_start; auto).
  assert (S4 : start st (schema_name name) w1 = s1) by (apply mem_start; auto).
  rewrite S3 in B2. rewrite S4 in B2'.
  assert (SC : same_caches w w2).
  { destruct T1 as (_ & (R1 & M1) & _), T2 as (_ & (R2 & M2) & _). split; congruence. }
  assert (F1 : finds st w2 name (Some (resource_bytes d1 ++ resource_bytes d2))).
  { eapply finds_cell; eauto. discriminate. }
  assert (F2 : finds st w2 (schema_name name) (Some (s1 ++ s2))).
  { eapply finds_cell; eauto. discriminate. }
  assert (Hf2 : w_faults w2 = []) by (apply T2, T1; auto).
  destruct (read_exact b' e' st name expected w2 _ _ Hf2 (maps_ok_caches _ _ SC MO) F1 F2) as (o & w3 & R & _ & X).
  exists w3. rewrite R. f_equal.
  assert (L : forall d, len (resource_bytes d) = len d + 16).
  { intros d. unfold resource_bytes. rewrite framed_len, len_zeros by lia. lia. }
  assert (0 <= len d1) by apply len_nonneg. assert (0 <= len d2) by apply len_nonneg.
  assert (HH : header (resource_bytes d1 ++ resource_bytes d2) = len d1).
  { rewrite header_app by (rewrite L; lia). apply resource_header; auto. }
  destruct X as [(r & -> & V & _)|(_ & _ & X & _)].
  - split; [apply Forall_app; split; apply resource_bytes_ok; auto|]. rewrite len_app, !L. lia.
  - f_equal. assert (NF : forall d pad, resource_bytes d1 ++ resource_bytes d2 = framed d pad -> len pad <> 8).
    { intros d pad E Hp. assert (E' := f_equal len E). rewrite len_app, !L, framed_len, Hp in E'.
      assert (header (framed d pad) = len d).
      { unfold header. rewrite framed_header. rewrite le_val_bytes. apply Z.mod_small.
        pose proof (len_nonneg d). unfold isize_max in HL. lia. }
      rewrite <- E, HH in *. lia. }
    inversion V; subst; try (exfalso; eapply NF; eauto; fail); destruct r; simpl in *; congruence.
  - exfalso. rewrite HH in X. destruct D1 as (_ & D1). unfold isize_max in D1. lia.
Qed.

(** * Reads through [read] are stable *)
Lemma mem_checked_stable A (m : M A) b e id base name expected w sl w1 o w2 :
  maps_ok w -> (id < w_next w)%nat -> api m ->
  read b e (MemStorage id base) name expected w = (Ret (Ok sl), w1) -> m w1 = (o, w2) ->
  read b e (MemStorage id base) name expected w2 = (Ret (Ok sl), w2).
Proof.
  intros MO Hid Ha R Hm. set (st := MemStorage id base) in *.
  unfold read, mtry, mbind in R. destruct (read_resource st name w) as [o1 wa] eqn:E1.
  destruct o1 as [[c|]| | |]; try discriminate.
  destruct (read_resource st (schema_name name) wa) as [o2 wb] eqn:E2.
  destruct o2 as [[sc|]| | |]; try discriminate. unfold lift in R. injection R as R ->.
  destruct (read_resource_cases _ _ _ _ _ MO E1) as ((T & _ & _ & _ & _ & MO1 & _) & _).
  assert (N1 : w_next wa = w_next w) by apply T.
  assert (S2 : read_resource st (schema_name name) w2 = (Ret (Ok sc), w2)).
  { apply (mem_read_stable _ m id base (schema_name name) wa sc w1 o w2); auto. lia. }
  assert (S1 : read_resource st name w2 = (Ret (Ok c), w2)).
  { apply (mem_read_stable _ (let! _ := read_resource st (schema_name name) in m) id base name w c wa o w2); auto.
    - apply api_bind; [apply api_read|auto].
    - unfold mbind. rewrite E2. auto. }
  unfold read, mtry, mbind. rewrite S1, S2. unfold lift. rewrite R. auto.
Qed.

Lemma file_checked_stable A (m : M A) b e id base name expected w sl w1 o w2 :
  let st := FileStorage id base in
  maps_ok w -> (id < w_next w)%nat -> api m ->
  read b e st name expected w = (Ret (Ok sl), w1) -> m w1 = (o, w2) ->
  (forall n, n = name \/ n = schema_name name -> w_files w2 (res_key st n) = w_files w1 (res_key st n)) ->
  exists w3, read b e st name expected (set_faults [] w2) = (Ret (Ok sl), w3).
Proof.
  intros st MO Hid Ha R Hm HF.
  unfold read, mtry, mbind in R. destruct (read_resource st name w) as [o1 wa] eqn:E1.
  destruct o1 as [[c|]| | |]; try discriminate.
  destruct (read_resource st (schema_name name) wa) as [o2 wb] eqn:E2.
  destruct o2 as [[sc|]| | |]; try discriminate. unfold lift in R. injection R as R ->.
  destruct (read_resource_cases _ _ _ _ _ MO E1) as ((T & _ & Fa & _ & _ & MO1 & _) & _).
  specialize (MO1 MO).
  destruct (read_resource_cases _ _ _ _ _ MO1 E2) as ((_ & _ & Fb & _ & _ & MO2 & _) & _).
  specialize (MO2 MO1). assert (N1 : w_next wa = w_next w) by apply T.
  assert (MO3 : maps_ok (set_faults [] w2)) by (apply (api_keeps _ m Ha w1 o w2 MO2 Hm); auto).
  destruct (file_read_stable _ m id base (schema_name name) wa sc w1 o w2) as (ws & Hs); auto; [lia|].
  destruct (file_read_stable _ (let! _ := read_resource st (schema_name name) in m) id base name w c wa o w2)
    as (wn & Hn); auto.
  - apply api_bind; [apply api_read|auto].
  - unfold mbind. rewrite E2. auto.
  - fold st. rewrite HF by auto. congruence.
  - fold st in Hs, Hn. destruct (read_resource_cases _ _ _ _ _ MO3 Hn) as ((_ & Cn & _ & _ & _ & MO4 & Kn) & _).
    destruct (read_resource_cases _ _ _ _ _ MO3 Hs) as (_ & Xs & _).
    destruct (Xs sc eq_refl) as (cs & -> & Fs). apply Kn in Fs.
    destruct (read_resource st (schema_name name) wn) as [o4 w4] eqn:E4.
    destruct (read_resource_cases _ _ _ _ _ (MO4 MO3) E4) as (_ & _ & Y & _).
    rewrite (Y (Some cs)) in E4; [|apply Cn; auto|auto].
    unfold read, mtry, mbind. rewrite Hn, E4. unfold lift. rewrite R. eauto.
Qed.

(** Memory storage keeps returning what was first read. *)
Lemma mem_rewrite_after_read b e id base name s1 s2 d1 d2 w w1 w2 w3 sl : maps_ok w -> (id < w_next w)%nat ->
  fresh_name (MemStorage id base) name w -> schema_ok (MemStorage id base) s1 -> data_ok d1 ->
  write b e (MemStorage id base) name s1 d1 w = (Ret (Ok tt), w1) ->
  read b e (MemStorage id base) name s1 w1 = (Ret (Ok sl), w2) ->
  write b e (MemStorage id base) name s2 d2 w2 = (Ret (Ok tt), w3) ->
  sl_bytes sl = d1 /\ read b e (MemStorage id base) name s1 w3 = (Ret (Ok sl), w3).
Proof.
  intros MO Hid F S D W1 R W2. assert (K := write_touches _ _ _ _ _ _ _ _ _ W1).
  assert (N : w_next w1 = w_next w) by apply K.
  assert (MO1 : maps_ok w1) by (eapply maps_ok_caches; [apply K|auto]).
  split.
  - destruct (read_ok_sound _ _ _ _ _ _ _ _ MO1 R) as (c & sc & F1 & F2 & V).
    destruct (write_then_read b b e e _ name s1 d1 w w1 MO F S D W1) as (B1 & B2 & _).
    assert (Fc : finds (MemStorage id base) w1 name (Some (resource_bytes d1))).
    { eapply finds_cell; [apply F|apply K|exact B1|discriminate]. }
    assert (E := finds_fun _ _ _ _ _ F1 Fc). injection E as ->.
    destruct (V (resource_bytes_ok d1 D)) as (V1 & _).
    assert (Fs : finds (MemStorage id base) w1 (schema_name name) (Some s1)).
    { eapply finds_cell; [apply F|apply K|exact B2|discriminate]. }
    assert (E := finds_fun _ _ _ _ _ F2 Fs). injection E as ->.
    apply (verdict_framed name s1 d1 (zeros 8) s1) in V1; [congruence|reflexivity|apply S|reflexivity].
  - eapply (mem_checked_stable _ (write b e (MemStorage id base) name s2 d2)); eauto; [lia|apply api_write_res].
Qed.

(** * Sub-directories *)
Lemma file_subdir b e id base dir name schema data w st1 wa wb st2 wc :
  maps_ok w -> w_faults w = [] -> schema_ok (FileStorage id base) schema -> data_ok data ->
  subdir (FileStorage id base) dir w = (Ret st1, wa) ->
  write b e st1 name schema data wa = (Ret (Ok tt), wb) ->
  subdir (FileStorage id base) dir wb = (Ret st2, wc) ->
  exists sl wd, read b e st2 name schema wc = (Ret (Ok sl), wd) /\ sl_bytes sl = data.
Proof.
  intros MO Hf (S1 & S2 & S3 & S4) D E1 W E2. injection E1 as <- <-. injection E2 as <- <-.
  set (wa := set_next _ (set_maps _ w)) in *. set (p := path_join base dir) in *.
  assert (MOa : maps_ok wa).
  { intros i q l. simpl. unfold nupd. destruct (Nat.eqb i (w_next w)); [discriminate|apply MO]. }
  destruct (write_cases b e (FileStorage (w_next w) p) name schema data wa (Ret (Ok tt)) wb I I W) as (T & X).
  destruct X as [(_ & B1 & B2)|(_ & F & _)]; [|destruct F as [(k & ?)|?]; discriminate].
  simpl in B1, B2. set (wc := set_next _ (set_maps _ wb)). set (i := w_next wb).
  assert (MOb : maps_ok wb) by (eapply maps_ok_caches; [apply T|auto]).
  assert (MOc : maps_ok wc).
  { intros j q l. simpl. unfold nupd. destruct (Nat.eqb j (w_next wb)); [discriminate|apply MOb]. }
  assert (Hfc : w_faults wc = []) by (apply T; auto).
  destruct (read_framed b e (FileStorage i p) name wc data (zeros 8) schema) as (sl & wd & R & E & _); eauto.
  - simpl. unfold i at 1. rewrite nupd_same.
    change (res_key (FileStorage i p) name) with (res_key (FileStorage (w_next w) p) name). rewrite B1.
    fold (resource_bytes data). destruct (resource_bytes data) eqn:Er; auto.
    apply resource_bytes_nonempty in Er. contradiction.
  - apply bytes_ok_zeros.
  - simpl. unfold i at 1. rewrite nupd_same.
    change (res_key (FileStorage i p) (schema_name name)) with (res_key (FileStorage (w_next w) p) (schema_name name)).
    rewrite B2. destruct schema; auto. contradiction S4; auto.
Qed.

Lemma mem_subdir b e id base dir name w st1 wa :
  subdir (MemStorage id base) dir w = (Ret st1, wa) ->
  forall expected, read b e st1 name expected wa = (Ret (Er (EIo KNotFound name)), wa).
Proof.
  intros E expected. injection E as <- <-. unfold read, mtry, mbind. simpl. rewrite !nupd_same. auto.
Qed.

(** * Nested keys *)
Lemma file_nested_missing b e id base name schema data w : w_faults w = [] ->
  is_dir (key_of base) w = true -> is_dir (res_key (FileStorage id base) name) w = false ->
  is_dir (parent (res_key (FileStorage id base) name)) w = false ->
  write b e (FileStorage id base) name schema data w =
    (Ret (Er (if file_on_path (parent (res_key (FileStorage id base) name)) w then KOther else KNotFound)), w).
Proof.
  intros Hf H1 H2 H3. unfold write, mtry, mbind, create_output_stream, mtry, mbind, path_exists, mbind.
  unfold file_create, syscall, next_fault. rewrite Hf. unfold is_dir in H1. unfold on_disk.
  assert (forall (o : option (list Z)), match o with Some _ => true | None => w_dirs w (key_of base) || Nat.eqb (List.length (snd (key_of base))) 0 end = true) as Ho
    by (intros []; auto).
  rewrite Ho. unfold mret. rewrite Hf, H2, H3. reflexivity.
Qed.

(** * Schemas *)
Lemma failed_write_schema b e id base name schema data w o w' :
  write b e (FileStorage id base) name schema data w = (o, w') -> failed o -> data_ok data ->
  w_files w (res_key (FileStorage id base) (schema_name name)) = None ->
  forall b' e' expected sl, fresh_read b' e' base name expected w' = Ret (Ok sl) ->
  sl_bytes sl = data /\ expected <> [] /\ exists rest, schema = expected ++ rest.
Proof.
  intros W F D NS b' e' expected sl R.
  destruct (write_cases b e (FileStorage id base) name schema data w o w' I I W) as (_ & X).
  destruct X as [(-> & _)|(_ & _ & _ & P)]; [destruct F as [(k & ?)|?]; discriminate|].
  pose proof (fresh_read_cases b' e' base name expected w') as C.
  unfold write_progress in P. simpl in P.
  change (res_key (FileStorage id base)) with (res_key (FileStorage 0 base)) in *.
  destruct P as [(_ & P)|[(p & q & _ & _ & P)|(p & q & E & P1 & P2)]].
  - rewrite P, NS in C. unfold fresh_result in C. simpl in C.
    destruct (on_file _); destruct C as (k & C); congruence.
  - rewrite P, NS in C. unfold fresh_result in C. simpl in C.
    destruct (on_file _); destruct C as (k & C); congruence.
  - rewrite P1, P2 in C. assert (on_file (Some (resource_bytes data)) = Some (resource_bytes data)) as E1.
    { unfold on_file. destruct (resource_bytes data) eqn:Er; auto. apply resource_bytes_nonempty in Er. contradiction. }
    rewrite E1 in C. destruct p as [|x p]; simpl in C; [destruct C as (k & C); congruence|].
    destruct (checked_prefix b' e' name expected data (resource_bytes data) [] (x :: p) D (eq_sym (app_nil_r _)))
      as [(sl' & Es & E2 & _ & E3)|(err & Es)]; rewrite C in R; rewrite Es in R; [|discriminate].
    injection R as <-. split; auto. split; [congruence|]. exists q. congruence.
Qed.

(** * Rewriting what has been read through the same file storage *)
Lemma file_rewrite_shorter b e id base name s1 s2 d1 d2 w w1 sl w2 w3 :
  let st := FileStorage id base in
  maps_ok w -> w_faults w = [] -> (id < w_next w)%nat -> fresh_name st name w ->
  schema_ok st s1 -> data_ok d1 -> data_ok d2 -> len d2 < len d1 ->
  write b e st name s1 d1 w = (Ret (Ok tt), w1) ->
  read b e st name s1 w1 = (Ret (Ok sl), w2) ->
  write b e st name s2 d2 w2 = (Ret (Ok tt), w3) ->
  forall expected, exists w4, read b e st name expected w3 = (UB, w4).
Proof.
  intros st MO Hf Hid F S D1 D2 HL W1 R W2 expected.
  destruct (write_cases b e st name s1 d1 w _ w1 I I W1) as (T1 & [(_ & B1 & _)|(_ & X & _)]);
    [|destruct X as [(k & ?)|?]; discriminate].
  destruct (write_cases b e st name s2 d2 w2 _ w3 I I W2) as (T2 & [(_ & B2 & _)|(_ & X & _)]);
    [|destruct X as [(k & ?)|?]; discriminate].
  simpl in B1, B2. fold st in B1, B2. simpl app in B1, B2.
  assert (Hf1 : w_faults w1 = []) by (apply T1; auto).
  assert (MO1 : maps_ok w1) by (eapply maps_ok_caches; [apply T1|auto]).
  assert (L : forall d, len (resource_bytes d) = len d + 16).
  { intros d. unfold resource_bytes. rewrite framed_len, len_zeros by lia. lia. }
  assert (M1 : w_maps w1 id (res_path st name) = None).
  { destruct T1 as (_ & (_ & ->) & _). apply F. }
  assert (M2 : w_maps w2 id (res_path st name) = Some (len (resource_bytes d1)) /\ w_faults w2 = []).
  { unfold read, mtry in R. unfold mbind at 1 in R.
    assert (E : read_resource st name w1 = (Ret (Ok (whole (resource_bytes d1))),
      set_maps (nupd id (supd (res_path st name) (Some (len (resource_bytes d1))) (w_maps w1 id)) (w_maps w1)) w1)).
    { unfold read_resource, st. fold st. unfold mbind, path_exists, mbind, syscall, next_fault. rewrite Hf1.
      unfold on_disk. rewrite B1. unfold mret, mmap_read. rewrite M1. unfold syscall, next_fault. rewrite Hf1.
      fold (res_key st name). rewrite B1. pose proof (len_nonneg d1).
      destruct (Z.eqb_spec (len (resource_bytes d1)) 0); [rewrite L in *; lia|].
      unfold mapped, file_content. simpl w_files. rewrite B1, Z.leb_refl. simpl. f_equal. f_equal. f_equal.
      unfold whole. f_equal. apply firstn_all2. unfold len. lia. }
    rewrite E in R. clear E. set (wa := set_maps _ w1) in R.
    assert (Ma : w_maps wa id (res_path st name) = Some (len (resource_bytes d1))).
    { simpl. rewrite nupd_same, supd_same. auto. }
    destruct (mbind _ _ wa) as [o wb] eqn:E in R. injection R as -> ->.
    unfold mbind in E. destruct (read_resource st (schema_name name) wa) as [o1 wc] eqn:E1.
    assert (MOa : maps_ok wa).
    { intros i q l. simpl. unfold nupd, supd. destruct (Nat.eqb i id); [|apply MO1].
      destruct (String.eqb q _); [|apply MO1]. intros [= <-]. rewrite L. pose proof (len_nonneg d1). lia. }
    destruct (read_resource_cases _ _ _ _ _ MOa E1) as ((Tc & Cc & _) & _).
    assert (wc = w2) by (destruct o1 as [[]| | |]; unfold lift, mret in E; congruence). subst wc.
    split; [|apply Cc; auto]. destruct Tc as (_ & _ & Tc & _). rewrite Tc; auto.
    intros HH. apply (cell_schema st name). exact HH. }
  destruct M2 as (M2 & Hf2). assert (Hf3 : w_faults w3 = []) by (apply T2; auto).
  assert (M3 : w_maps w3 id (res_path st name) = Some (len (resource_bytes d1))).
  { destruct T2 as (_ & (_ & ->) & _). auto. }
  exists w3. unfold read, mtry, mbind, read_resource, st. fold st. unfold mbind, path_exists, mbind, syscall, next_fault.
  rewrite Hf3. unfold on_disk. rewrite B2. unfold mret, mmap_read. rewrite M3. unfold mapped, file_content.
  fold (res_key st name). rewrite B2. destruct (Z.leb_spec (len (resource_bytes d1)) (len (resource_bytes d2))); auto.
  rewrite !L in *. lia.
Qed.

(** * Decisions of [read] *)
Lemma read_decides b e st name expected w c sc : w_faults w = [] -> maps_ok w ->
  finds st w name (Some c) -> finds st w (schema_name name) (Some sc) -> stored_ok c ->
  (b = Release \/ len c < 16 \/ header c + 16 < 2 ^ 64) ->
  exists r w', read b e st name expected w = (Ret r, w') /\ verdict name expected c sc (seen r).
Proof.
  intros Hf MO F1 F2 S H.
  destruct (read_exact b e st name expected w _ _ Hf MO F1 F2) as (o & w' & R & _ & X).
  rewrite R. destruct (X S) as [(r & -> & V & _)|(-> & G' & G & _)]; [eauto|].
  destruct H; [discriminate|lia].
Qed.

Lemma framed_header_val d pad : len d < 2 ^ 64 -> header (framed d pad) = len d.
Proof.
  intros H. unfold header. rewrite framed_header, le_val_bytes. apply Z.mod_small.
  pose proof (len_nonneg d). simpl. lia.
Qed.

Lemma verdict_ok_iff name expected c sc r : stored_ok c -> verdict name expected c sc r ->
  forall d, r = Ok d <-> (exists pad, c = framed d pad /\ len pad = 8) /\ utf8_ok sc = true /\ sc = expected.
Proof.
  intros S V d. split.
  - intros ->. inversion V; subst. eauto.
  - intros ((pad & E & L) & U & Es). inversion V as [d' pad' E' L'| N |d' pad' E' L' U'|d' pad' E' L' U' Es']; subst.
    + f_equal. assert (Q := f_equal len E'). rewrite !framed_len in Q.
      assert (Q' := framed_data d pad). rewrite E' in Q'. replace (len d) with (len d') in Q' by lia.
      rewrite framed_data in Q'. auto.
    + exfalso. eapply N; eauto.
    + congruence.
    + congruence.
Qed.

Lemma size_error name expected c sc r :
  (forall d pad, c = framed d pad -> len pad <> 8) -> verdict name expected c sc r -> r = Er EUnexpectedDataSize.
Proof. intros N V. inversion V; subst; auto; exfalso; eapply N; eauto. Qed.

Lemma seen_er r x : seen r = Er x -> r = Er x.
Proof. destruct r; simpl; congruence. Qed.

(** A stored resource cut somewhere, or continued. *)
Lemma read_truncated b e st name expected w d pad p q sc : w_faults w = [] -> maps_ok w ->
  data_ok d -> bytes_ok pad -> len pad = 8 -> framed d pad = p ++ q -> q <> [] ->
  finds st w name (Some p) -> finds st w (schema_name name) (Some sc) ->
  exists w', read b e st name expected w = (Ret (Er EUnexpectedDataSize), w').
Proof.
  intros Hf MO D Bp L E Q F1 F2.
  assert (Sp : stored_ok (framed d pad)).
  { destruct D as (D1 & D2). split; [|rewrite framed_len; lia].
    unfold framed. repeat (apply Forall_app; split); auto. apply le_bytes_ok. }
  assert (0 < len q) by (destruct q; [contradiction|rewrite len_cons; pose proof (len_nonneg q); lia]).
  assert (Lp : len p + len q = 16 + len d).
  { rewrite <- len_app, <- E, framed_len. lia. }
  assert (Hh : 16 <= len p -> header p = len d).
  { intros G. rewrite <- (header_app p q) by lia. rewrite <- E. apply framed_header_val.
    destruct D as (_ & D). unfold isize_max in D. lia. }
  rewrite E in Sp. assert (S' := stored_ok_prefix p q Sp).
  destruct (read_exact b e st name expected w _ _ Hf MO F1 F2) as (o & w' & R & _ & X).
  exists w'. rewrite R. f_equal. destruct (X S') as [(r & -> & V & _)|(-> & G1 & G2 & _)].
  - f_equal. apply seen_er. apply (size_error _ _ _ _ _) in V; auto.
    intros d' pad' Ep Lp' . subst p. rewrite framed_len in Hh, Lp. pose proof (len_nonneg d').
    rewrite framed_header_val in Hh; [rewrite <- Hh in Lp by lia; lia|].
    destruct D as (_ & D). unfold isize_max in D. lia.
  - rewrite Hh in G2 by lia. destruct D as (_ & D). unfold isize_max in D. lia.
Qed.

Lemma read_extended b e st name expected w d pad q sc : w_faults w = [] -> maps_ok w ->
  len pad = 8 -> q <> [] -> stored_ok (framed d pad ++ q) ->
  finds st w name (Some (framed d pad ++ q)) -> finds st w (schema_name name) (Some sc) ->
  exists w', read b e st name expected w = (Ret (Er EUnexpectedDataSize), w').
Proof.
  intros Hf MO L Q S F1 F2.
  assert (0 < len q) by (destruct q; [contradiction|rewrite len_cons; pose proof (len_nonneg q); lia]).
  assert (HL : len (framed d pad ++ q) = 16 + len d + len q) by (rewrite len_app, framed_len; lia).
  assert (HB : 16 + len d + len q < 2 ^ 63).
  { destruct S as (_ & S). unfold isize_max in S. lia. }
  pose proof (len_nonneg d).
  assert (Hh : header (framed d pad ++ q) = len d).
  { rewrite header_app by (rewrite framed_len; lia). apply framed_header_val. lia. }
  destruct (read_decides b e st name expected w _ _ Hf MO F1 F2 S) as (r & w' & R & V); [right; lia|].
  exists w'. rewrite R. f_equal. f_equal. apply seen_er. apply (size_error _ _ _ _ _) in V; auto.
  intros d' pad' E Lp. rewrite E in HL, Hh. rewrite framed_len in HL. pose proof (len_nonneg d').
  rewrite framed_header_val in Hh; lia.
Qed.

(** A header that does not fit. *)
Lemma read_bad_header b e st name expected w c sc : w_faults w = [] -> maps_ok w ->
  finds st w name (Some c) -> finds st w (schema_name name) (Some sc) -> stored_ok c ->
  len c < 16 \/ header c <> len c - 16 -> (b = Release \/ len c < 16 \/ header c + 16 < 2 ^ 64) ->
  exists w', read b e st name expected w = (Ret (Er EUnexpectedDataSize), w').
Proof.
  intros Hf MO F1 F2 S N H.
  destruct (read_decides b e st name expected w _ _ Hf MO F1 F2 S H) as (r & w' & R & V).
  exists w'. rewrite R. f_equal. f_equal. apply seen_er. apply (size_error _ _ _ _ _) in V; auto.
  intros d pad -> L. destruct N as [N|N]; [rewrite framed_len in N; pose proof (len_nonneg d); lia|].
  apply N. rewrite framed_len. rewrite framed_header_val; [lia|].
  destruct S as (_ & S). rewrite framed_len in S. pose proof (len_nonneg d). unfold isize_max in S. lia.
Qed.

Lemma read_header_panics e st name expected w c sc : w_faults w = [] -> maps_ok w ->
  finds st w name (Some c) -> finds st w (schema_name name) (Some sc) -> stored_ok c ->
  16 <= len c -> 2 ^ 64 <= header c + 16 ->
  exists w', read Debug e st name expected w = (Panic, w').
Proof.
  intros Hf MO F1 F2 S L H.
  destruct (read Debug e st name expected w) as [o w'] eqn:R. exists w'. f_equal.
  destruct (read_cases _ _ _ _ _ _ _ _ MO R) as (_ & X).
  destruct X as [(k & _ & X)|[(_ & _ & X)|[(_ & X)|(c' & sc' & G1 & G2 & ->)]]].
  - destruct X as [(_ & X)|[X|X]]; [contradiction| |]; exfalso; eapply X; eauto.
  - contradiction.
  - destruct X as [X|X]; exfalso; eapply X; eauto.
  - assert (E1 := finds_fun _ _ _ _ _ F1 G1). injection E1 as <-.
    destruct S as (Sb & Sl). unfold checked, check_resource.
    change (sl_len (whole c)) with (len c). change (sl_mem (whole c)) with c.
    change (SIZE_OF_SIZE_TYPE + PADDING_SIZE) with 16. destruct (Z.ltb_spec (len c) 16); [lia|].
    rewrite read_size by (auto; lia). assert (HR := header_range c Sb ltac:(lia)). simpl obind. unfold uadd.
    unfold SIZE_OF_SIZE_TYPE, PADDING_SIZE, wrap_or_panic, usize_limit.
    destruct (Z.leb_spec 0 (header c + 8)); [|lia].
    destruct (Z.ltb_spec (header c + 8) (2 ^ 64)) as [G|G]; simpl andb; cbv iota; simpl obind; auto.
    destruct (Z.leb_spec 0 (header c + 8 + 8)); [|lia].
    destruct (Z.ltb_spec (header c + 8 + 8) (2 ^ 64)) as [G'|G']; simpl andb; cbv iota; simpl obind; auto. lia.
Qed.

(** What streaming leaves on a target of any width, without failures. *)
From Verif Require Import Base BaseFacts Codec CodecSpec CodecFacts Storage PathFacts StorageSpec.
From Verif Require Import StorageFacts StorageMore StorageUse Structs Views Writers HandleFacts Width WidthFacts Conc WidthWriters.
Local Open Scope list_scope.
Local Open Scope Z_scope.
Local Arguments firstn : simpl never.
Local Arguments skipn : simpl never.

Section Facts.
Variables (W : Z) (st : storage) (name : string).
Hypothesis HW : 0 <= W.

(** An open handle; [c] is in its stream, [n] is its count. *)
Definition counting (h : handle) (w : world) (c : list Z) (n : Z) : Prop :=
  exists s, h_stream h = Some s /\ cell_of s = cell_at st name /\ at_pos s w c (len c) /\ h_size h = n.

Lemma no_fail s w : cell_of s = cell_at st name -> w_faults w = [] -> ~ can_fail s w.
Proof. intros C Hf F. destruct (can_fail_file s st name w C F) as (_ & N). auto. Qed.

Lemma wrap_w_eq b x : 0 <= x -> wrap_w W b x =
  if x <? 2 ^ W then Ret x else match b with Debug => Panic | Release => Ret (x mod 2 ^ W) end.
Proof. intros H. unfold wrap_w. replace (0 <=? x) with true by lia. reflexivity. Qed.

Lemma write_w_end b h w c n d : counting h w c n -> 0 <= n < 2 ^ W -> w_faults w = [] ->
  exists w1, step (eq (cell_at st name)) w w1 /\ w_faults w1 = [] /\
    if match b with Debug => 2 ^ W <=? n + len d | Release => false end
    then handle_write_w W b h d w = (Panic, w1)
    else exists h1, handle_write_w W b h d w = (Ret (Ok tt, h1), w1) /\ counting h1 w1 (c ++ d) ((n + len d) mod 2 ^ W).
Proof.
  intros (s & E & C & A & N) Hn Hf. unfold handle_write_w. rewrite E. unfold mbind.
  destruct (write_all s d w) as [o1 w1] eqn:E1.
  destruct (puts_end _ d s w c o1 w1 (write_all_puts d) A E1) as (S1 & X). rewrite C in S1.
  destruct X as [(s' & -> & C' & A')|(F & _)]; [|destruct (no_fail s w C Hf F)].
  exists w1. split; [apply S1|]. split; [apply S1; auto|]. pose proof (len_nonneg d).
  unfold lift, uadd_w. rewrite N, wrap_w_eq by lia.
  assert (K : counting (mkHandle (Some s') ((n + len d) mod 2 ^ W) (h_storage h) (h_name h) (h_schema h)) w1 (c ++ d) ((n + len d) mod 2 ^ W)).
  { exists s'. split; [reflexivity|]. split; [congruence|]. auto. }
  destruct (Z.ltb_spec (n + len d) (2 ^ W)) as [L|L].
  - replace (match b with Debug => 2 ^ W <=? n + len d | Release => false end) with false by (destruct b; lia).
    rewrite Z.mod_small in * by lia. eexists. split; [reflexivity|exact K].
  - destruct b; [replace (2 ^ W <=? n + len d) with true by lia; reflexivity|].
    eexists. split; [reflexivity|exact K].
Qed.

Lemma writes_w_end b cs : forall h w c n, counting h w c n -> 0 <= n < 2 ^ W -> w_faults w = [] ->
  exists w1, step (eq (cell_at st name)) w w1 /\ w_faults w1 = [] /\
    if match b with Debug => 2 ^ W <=? n + len (List.concat cs) | Release => false end
    then handle_writes_w W b cs h w = (Panic, w1)
    else exists h1, handle_writes_w W b cs h w = (Ret (Ok h1), w1) /\
      counting h1 w1 (c ++ List.concat cs) ((n + len (List.concat cs)) mod 2 ^ W).
Proof.
  induction cs as [|d cs IH]; intros h w c n K Hn Hf; cbn [handle_writes_w List.concat].
  - exists w. split; [apply step_refl|]. split; auto. change (len (@nil Z)) with 0. rewrite Z.add_0_r, app_nil_r.
    replace (match b with Debug => 2 ^ W <=? n | Release => false end) with false by (destruct b; lia).
    rewrite Z.mod_small by lia. exists h. auto.
  - destruct (write_w_end b h w c n d K Hn Hf) as (w1 & S1 & Hf1 & X). unfold mbind. rewrite len_app.
    pose proof (len_nonneg d). pose proof (len_nonneg (List.concat cs)).
    destruct (match b with Debug => 2 ^ W <=? n + len d | Release => false end) eqn:B.
    + exists w1. rewrite X. replace (match b with Debug => 2 ^ W <=? n + (len d + len (List.concat cs)) | Release => false end) with true
        by (destruct b; [lia|discriminate]). auto.
    + destruct X as (h1 & X & K1). rewrite X.
      assert (Hn1 : 0 <= (n + len d) mod 2 ^ W < 2 ^ W) by (apply Z.mod_pos_bound; lia).
      destruct (IH h1 w1 (c ++ d) _ K1 Hn1 Hf1) as (w2 & S2 & Hf2 & Y).
      exists w2. split; [eapply step_trans; eauto|]. split; auto.
      assert (Eb : match b with Debug => 2 ^ W <=? (n + len d) mod 2 ^ W + len (List.concat cs) | Release => false end =
                   match b with Debug => 2 ^ W <=? n + (len d + len (List.concat cs)) | Release => false end).
      { destruct b; auto. rewrite (Z.mod_small (n + len d)) by lia. f_equal. lia. }
      rewrite Eb in Y. destruct (match b with Debug => 2 ^ W <=? n + (len d + len (List.concat cs)) | Release => false end); auto.
      destruct Y as (h2 & Y & K2). exists h2. split; auto. rewrite <- app_assoc in K2.
      rewrite Z.add_mod_idemp_l in K2 by lia. rewrite Z.add_assoc. exact K2.
Qed.

Lemma finish_end b e h w c n : counting h w c n -> 8 <= len c -> w_faults w = [] ->
  exists w1, step (eq (cell_at st name)) w w1 /\ handle_finish b e h w = (Ret (Ok tt), w1) /\
    bytes_at (cell_at st name) w1 = Some (le_bytes 8 n ++ skipn 8 c ++ zeros 8).
Proof.
  intros (s & E & C & A & N) Hc Hf. unfold handle_finish. rewrite E.
  destruct (stry (write_padding s) _ w) as [o w'] eqn:R.
  apply (stry_puts _ _ s w c _ o w' write_padding_puts A) in R. rewrite C in R.
  destruct R as [(s1 & w1 & S1 & C1 & A1 & R)|(_ & F & _)]; [|destruct (no_fail s w C Hf F)].
  assert (Hf1 : w_faults w1 = []) by (apply S1; auto).
  unfold stry at 1, mbind at 1 in R. destruct (seek_start s1 w1) as [o2 w2] eqn:E2.
  destruct (seek_start_cases s1 w1 _ _ o2 w2 A1 E2) as (S2 & B2 & X2). rewrite C1 in *.
  destruct X2 as [(s2 & -> & C2 & A2)|(F & _)]; [|destruct (no_fail s1 w1 C1 Hf1 F)].
  assert (Hf2 : w_faults w2 = []) by (apply S2; auto).
  unfold stry, mbind in R. destruct (write_size b e (h_size h) s2 w2) as [o3 w3] eqn:E3.
  destruct (write_size_puts b e (h_size h) s2 w2 _ _ _ _ A2 ltac:(split; [lia|apply len_nonneg]) E3) as (S3 & X3).
  rewrite C2 in *.
  destruct X3 as [(s3 & -> & C3 & A3)|(F & _)]; [|destruct (no_fail s2 w2 C2 Hf2 F)].
  injection R as <- <-. exists w3. split; [|split; [reflexivity|]].
  - eapply step_trans; [apply S1|]. eapply step_trans; [apply S2|apply S3].
  - apply at_pos_bytes in A3. rewrite C3 in A3. rewrite A3, splice_start, N. f_equal. f_equal.
    change (length (le_bytes 8 n)) with 8%nat. rewrite skipn_app. unfold len in Hc.
    replace (8 - length c)%nat with 0%nat by lia. reflexivity.
Qed.

(** The whole stream. *)
Theorem stream_end b e schema cs w : w_faults w = [] -> fresh_name st name w -> unblocked st name w ->
  let D := List.concat cs in
  exists w1,
    if match b with Debug => 2 ^ W <=? len D | Release => false end
    then stream_w W b e st name schema cs w = (Panic, w1)
    else stream_w W b e st name schema cs w = (Ret (Ok tt), w1) /\
      bytes_at (cell_at st name) w1 = Some (le_bytes 8 (len D mod 2 ^ W) ++ D ++ zeros 8) /\
      bytes_at (cell_at st (schema_name name)) w1 = Some schema.
Proof.
  intros Hf (U1 & U2) Ub D. unfold stream_w, mtry, mbind.
  destruct (create_handle b e st name schema w) as [o w0] eqn:E0.
  assert (X : forall n, unused st n w -> at_end st n w /\ start st n w = []).
  { intros n U. destruct st as [id base|id base]; simpl; auto. destruct U as (-> & _). auto. }
  destruct (create_handle_cases b e st name schema w o w0) as (S0 & Y); auto using unused_uncached; try (apply X; auto).
  destruct Y as [(h & -> & Hw)|(_ & _ & N & _)]; [|destruct (N Hf Ub)].
  assert (Hf0 : w_faults w0 = []) by (apply S0; auto).
  assert (Bs : bytes_at (cell_at st (schema_name name)) w0 = Some schema) by (destruct Hw as (s & H); apply H).
  assert (K : counting h w0 (zeros 8) 0).
  { destruct Hw as (s & E & H1 & H2 & H3 & H4 & C & A & _). exists s. auto. }
  assert (Hp : 0 < 2 ^ W) by (apply Z.pow_pos_nonneg; lia).
  destruct (writes_w_end b cs h w0 (zeros 8) 0 K ltac:(lia) Hf0) as (w1 & S1 & Hf1 & Y).
  rewrite Z.add_0_l in Y. fold D in Y.
  destruct (match b with Debug => 2 ^ W <=? len D | Release => false end).
  - exists w1. rewrite Y. reflexivity.
  - destruct Y as (h1 & Y & K1). rewrite Y.
    destruct (finish_end b e h1 w1 _ _ K1) as (w2 & S2 & R & B); auto.
    { rewrite len_app, len_zeros by lia. pose proof (len_nonneg D). lia. }
    exists w2. split; [exact R|]. split; [exact B|].
    assert (S : step (eq (cell_at st name)) w0 w2) by (eapply step_trans; eauto).
    erewrite bytes_at_touches; [exact Bs|apply S|]. intros H. apply (cell_schema st name). auto.
Qed.
End Facts.

Lemma write_64 b h d w : handle_write_w 64 b h d w = handle_write b h d w.
Proof. reflexivity. Qed.

(** A header that is too small. *)
Lemma low_header_read b e base name w d n sch :
  bytes_at (cell_at (FileStorage 0 base) name) w = Some (le_bytes 8 n ++ d ++ zeros 8) ->
  bytes_at (cell_at (FileStorage 0 base) (schema_name name)) w = Some sch ->
  data_ok d -> sch <> [] -> 0 <= n < len d ->
  fresh_read b e base name sch w = Ret (Er EUnexpectedDataSize).
Proof.
  intros F1 F2 (Bd & Ld) Ns Hn. assert (X := fresh_read_cases b e base name sch w).
  change (w_files w (res_key (FileStorage 0 base) name)) with (bytes_at (cell_at (FileStorage 0 base) name) w) in X.
  change (w_files w (res_key (FileStorage 0 base) (schema_name name))) with (bytes_at (cell_at (FileStorage 0 base) (schema_name name)) w) in X.
  rewrite F1, F2 in X. set (c := le_bytes 8 n ++ d ++ zeros 8) in *. unfold isize_max in Ld.
  assert (Lc : len c = 16 + len d).
  { unfold c. rewrite !len_app, len_zeros by lia. change (len (le_bytes 8 n)) with 8. lia. }
  pose proof (len_nonneg d).
  assert (So : stored_ok c).
  { split; [|unfold isize_max; lia]. unfold c. rewrite !bytes_ok_app. auto using le_bytes_ok, bytes_ok_zeros. }
  assert (Hh : header c = n).
  { unfold header, c. rewrite firstn_app. change (length (le_bytes 8 n)) with 8%nat. change (8 - 8)%nat with 0%nat.
    rewrite firstn_O, app_nil_r. replace (firstn 8 (le_bytes 8 n)) with (le_bytes 8 n) by (symmetry; apply (firstn_all (le_bytes 8 n))). rewrite le_val_bytes. apply Z.mod_small. change (2 ^ (8 * Z.of_nat 8)) with (2 ^ 64). lia. }
  unfold on_file in X. destruct c eqn:Ec; [change (len (@nil Z)) with 0 in Lc; lia|]. rewrite <- Ec in *.
  destruct sch as [|s0 sch0] eqn:Es; [congruence|]. rewrite <- Es in *. simpl in X. unfold checked in X.
  destruct (check_resource_cases b e name sch c sch So) as [(r & E' & V & K)|(_ & _ & H' & _)].
  - rewrite E' in X. rewrite X. f_equal. 
    assert (N : forall d' pad, c = framed d' pad -> len pad <> 8).
    { intros d' pad E P. assert (len d' = n) by (rewrite <- Hh, E; symmetry; apply header_framed; rewrite E, framed_len, P in Lc; pose proof (len_nonneg d'); lia).
      rewrite E, framed_len in Lc. lia. }
    inversion V as [d' pad A B | A | d' pad A B | d' pad A B]; try (exfalso; eapply N; eauto; fail).
    destruct r; [discriminate|]. simpl in *. congruence.
  - lia.
Qed.

Theorem stream_read W b b' e e' id base name schema cs w w1 : 0 <= W ->
  let st := FileStorage id base in
  w_faults w = [] -> fresh_name st name w -> unblocked st name w ->
  data_ok (List.concat cs) -> schema_ok st schema ->
  stream_w W b e st name schema cs w = (Ret (Ok tt), w1) ->
  if len (List.concat cs) <? 2 ^ W
  then exists d, fresh_read b' e' base name schema w1 = Ret (Ok d) /\ sl_bytes d = List.concat cs
  else fresh_read b' e' base name schema w1 = Ret (Er EUnexpectedDataSize).
Proof.
  intros HW st Hf Fr Ub Do So R. subst st.
  destruct So as (U & _ & _ & Ne). specialize (Ne eq_refl).
  destruct (stream_end W (FileStorage id base) name HW b e schema cs w Hf Fr Ub) as (w2 & X).
  pose proof (len_nonneg (List.concat cs)).
  destruct (match b with Debug => 2 ^ W <=? len (List.concat cs) | Release => false end).
  { rewrite X in R. discriminate. }
  destruct X as (X & F1 & F2). rewrite X in R. injection R as <-.
  destruct (Z.ltb_spec (len (List.concat cs)) (2 ^ W)) as [L|L].
  - rewrite Z.mod_small in F1 by lia.
    destruct (fresh_read_framed b' e' base name w2 (List.concat cs) schema F1 F2 Do Ne U) as (sl & Y & Z & _). eauto.
  - eapply low_header_read; eauto. split; [apply Z.mod_pos_bound; lia|].
    assert (len (List.concat cs) mod 2 ^ W < 2 ^ W) by (apply Z.mod_pos_bound; lia). lia.
Qed.

Lemma stream_64 b e st name schema cs w : stream_w 64 b e st name schema cs w = stream_resource b e st name schema cs w.
Proof. reflexivity. Qed.

Theorem stream_lost W e id base name schema w : 8 <= W <= 62 ->
  let st := FileStorage id base in
  w_faults w = [] -> fresh_name st name w -> unblocked st name w -> schema_ok st schema ->
  exists cs w1, Forall (fun c => len c <= 2 ^ (W - 1) - 1) cs /\
    stream_w W Release e st name schema cs w = (Ret (Ok tt), w1) /\
    forall b' e', fresh_read b' e' base name schema w1 = Ret (Er EUnexpectedDataSize).
Proof.
  intros HW st Hf Fr Ub So. set (c := zeros (2 ^ (W - 1) - 1)).
  assert (P1 : 2 ^ W = 2 * 2 ^ (W - 1)) by (rewrite <- Z.pow_succ_r by lia; f_equal; lia).
  assert (P2 : 2 ^ 7 <= 2 ^ (W - 1) <= 2 ^ 61) by (split; apply Z.pow_le_mono_r; lia).
  change (2 ^ 7) with 128 in P2.
  assert (Lc : len c = 2 ^ (W - 1) - 1) by (apply len_zeros; lia).
  assert (LD : len (List.concat [c; c; c]) = 3 * (2 ^ (W - 1) - 1)).
  { cbn [List.concat]. rewrite !len_app, Lc. change (len (@nil Z)) with 0. lia. }
  destruct (stream_end W st name ltac:(lia) Release e schema [c; c; c] w Hf Fr Ub) as (w1 & R & _).
  exists [c; c; c], w1. split; [|split; auto].
  - repeat (apply Forall_cons; [lia|]). constructor.
  - intros b' e'. assert (X := stream_read W Release b' e e' id base name schema [c; c; c] w w1 ltac:(lia) Hf Fr Ub).
    rewrite LD in X. replace (3 * (2 ^ (W - 1) - 1) <? 2 ^ W) with false in X by lia. apply X; auto.
    split; [|rewrite LD; unfold isize_max; lia].
    cbn [List.concat]. rewrite !bytes_ok_app. repeat split; try apply bytes_ok_zeros. constructor.
Qed.

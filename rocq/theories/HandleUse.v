(** Facts about sequences of calls on one handle. *)
From Verif Require Import Base BaseFacts Codec CodecSpec Structs StructsSpec StructsFacts Views ViewsSpec.
From Verif Require Import Storage PathFacts StorageSpec StorageFacts StorageMore StorageUse.
From Verif Require Import Writers WritersSpec HandleFacts ExtVecFacts ExtVecUse HandleSpec.
Local Open Scope list_scope.
Local Open Scope Z_scope.

Lemma closed_run b e calls : forall h w, is_open h = false ->
  handle_run b e calls h w = (Ret (List.map (refused (h_name h)) calls, h), w).
Proof.
  induction calls as [|c calls IH]; intros h w H; [reflexivity|].
  assert (E : h_stream h = None) by (unfold is_open in H; destruct (h_stream h); congruence).
  destruct c; cbn [handle_run]; unfold handle_write, handle_close; rewrite E;
    unfold mbind, mret; cbn [snd fst]; rewrite IH by auto; reflexivity.
Qed.

Lemma run_app b e c1 c2 : forall h w a1 h1 w1 a2 h2 w2,
  handle_run b e c1 h w = (Ret (a1, h1), w1) -> handle_run b e c2 h1 w1 = (Ret (a2, h2), w2) ->
  handle_run b e (c1 ++ c2) h w = (Ret (a1 ++ a2, h2), w2).
Proof.
  induction c1 as [|c c1 IH]; intros h w a1 h1 w1 a2 h2 w2 R1 R2.
  - injection R1 as <- <- <-. exact R2.
  - destruct c; cbn [handle_run List.app] in *; unfold mbind in *;
      match type of R1 with context [match ?f with _ => _ end] =>
        match f with _ _ => destruct f as [[[x h']| | |] w'] eqn:E; try discriminate end end;
      cbn [snd fst] in *;
      destruct (handle_run b e c1 h' w') as [[[y h'']| | |] w''] eqn:E2; try discriminate;
      unfold mret in *; cbn [fst snd] in *; injection R1 as <- <- <-;
      rewrite (IH _ _ _ _ _ _ _ _ E2 R2); reflexivity.
Qed.

Definition calm_for (st : storage) (w : world) : Prop := is_file st = true -> w_faults w = [].

Lemma writes_run b e st name schema ds : forall h w W,
  writing st name schema h w W (zeros 8 ++ W) -> calm_for st w -> maps_ok w -> len W + len (concat ds) < 2 ^ 64 ->
  exists h' w', handle_run b e (List.map HWrite ds) h w = (Ret (List.map (fun _ => AWrite (Ok tt)) ds, h'), w') /\
    writing st name schema h' w' (W ++ concat ds) (zeros 8 ++ W ++ concat ds) /\ calm_for st w' /\ maps_ok w'.
Proof.
  induction ds as [|d ds IH]; intros h w W Hw C MO HL.
  - exists h, w. rewrite app_nil_r. auto.
  - cbn [List.map handle_run]. unfold mbind. cbn [concat] in HL. rewrite len_app in HL.
    pose proof (len_nonneg (concat ds)). pose proof (len_nonneg d).
    destruct (handle_write b h d w) as [o w1] eqn:E.
    destruct (handle_write_cases b st name schema h w W (zeros 8 ++ W) d o w1 Hw ltac:(lia) E) as (S & X).
    destruct X as [(h1 & -> & Hw1)|(Hf & Hn & _)]; [|exfalso; apply Hn, C, Hf].
    rewrite <- app_assoc in Hw1. cbn [snd fst].
    assert (C1 : calm_for st w1) by (intros Hf; apply S, C, Hf).
    assert (MO1 : maps_ok w1) by (eapply maps_ok_caches; [apply S|auto]).
    destruct (IH h1 w1 (W ++ d) Hw1 C1 MO1) as (h2 & w2 & R & Hw2 & C2 & MO2); [rewrite len_app; lia|].
    rewrite R. unfold mret. cbn [snd fst]. exists h2, w2. split; [reflexivity|].
    cbn [concat]. rewrite <- app_assoc in Hw2. auto.
Qed.

Lemma handle_session b e st name schema ds rest w :
  schema_ok st schema -> maps_ok w -> fresh_name st name w -> unblocked st name w -> calm_for st w ->
  bytes_ok (concat ds) -> len (concat ds) + 16 <= isize_max ->
  exists h w1 h2 w2 sl h3 w3,
    create_handle b e st name schema w = (Ret (Ok h), w1) /\
    handle_run b e (List.map HWrite ds) h w1 = (Ret (List.map (fun _ => AWrite (Ok tt)) ds, h2), w2) /\
    is_open h2 = true /\
    handle_run b e (List.map HWrite ds ++ HClose :: rest) h w1 =
      (Ret (List.map (fun _ => AWrite (Ok tt)) ds ++ AClose (Ok sl) :: List.map (refused name) rest, h3), w3) /\
    is_open h3 = false /\ sl_bytes sl = concat ds /\ slice_ok sl /\
    bytes_at (cell_at st name) w3 = Some (resource_bytes (concat ds)) /\
    bytes_at (cell_at st (schema_name name)) w3 = Some schema.
Proof.
  intros Sok MO F Un C Bd HL. destruct (fresh_uncached _ _ _ F) as (A1 & A2 & A3 & A4 & A5 & A6).
  destruct (create_handle b e st name schema w) as [o w1] eqn:E1.
  destruct (create_handle_cases _ _ _ _ _ _ _ _ A1 A2 A3 A4 A5 A6 E1) as (S1 & X).
  destruct X as [(h & -> & Hw)|(Hf & _ & N & _)]; [|exfalso; exact (N (C Hf) Un)].
  assert (C1 : calm_for st w1) by (intros Hf; apply S1, C, Hf).
  assert (MO1 : maps_ok w1) by (eapply maps_ok_caches; [apply S1|auto]).
  rewrite <- (app_nil_r (zeros 8)) in Hw. pose proof (len_nonneg (concat ds)). unfold isize_max in HL.
  destruct (writes_run b e st name schema ds h w1 [] Hw C1 MO1) as (h2 & w2 & R & Hw2 & C2 & MO2);
    [rewrite len_nil; lia|]. cbn [List.app] in Hw2.
  destruct (handle_close b e h2 w2) as [o w3] eqn:E3.
  assert (Dok : data_ok (concat ds)) by (split; [auto|unfold isize_max; lia]).
  assert (Bc : bytes_ok (zeros 8 ++ concat ds)) by (apply bytes_ok_app; split; [apply bytes_ok_zeros|auto]).
  assert (Ls : loose (concat ds) (zeros 8 ++ concat ds)) by (destruct Hw2 as (s & ?); tauto).
  destruct (handle_close_cases b e _ _ _ _ _ _ _ _ _ Hw2 MO2 Sok Dok Bc E3) as (T & Cm & MO3 & X).
  assert (L8 : len (zeros 8 ++ concat ds) = 8 + len (concat ds)) by (rewrite len_app; reflexivity).
  destruct X as [(Hf & Hn & _)|(B1 & B2 & F1 & F2 & X)]; [exfalso; apply Hn, C2, Hf|].
  rewrite (sealed_exact _ _ Ls L8) in B1.
  destruct X as [(_ & Hf & Hn)|[(r & h3 & -> & Op & Okk & Ex)|Big]];
    [exfalso; apply Hn, C2, Hf| |unfold isize_max in Big; lia].
  assert (Q : is_file st = false \/ w_faults w2 = []) by (destruct (is_file st) eqn:Hf; [right; apply C2, Hf|auto]).
  destruct (Ex Q eq_refl) as (sl & ->).
  destruct (Okk sl eq_refl ltac:(unfold isize_max; lia)) as (V1 & _ & V2 & _).
  assert (Nm : h_name h3 = name).
  { destruct Hw2 as (s & Es & H1 & H2 & _). unfold handle_close in E3. rewrite Es in E3. unfold mbind in E3.
    repeat match type of E3 with
    | context [match ?f with (_, _) => _ end] => destruct f as [[[[?|?] ?]| | |] ?]; try discriminate
    end; try (injection E3; intros; subst; simpl; auto; fail);
    destruct (read _ _ _ _ _ _) as [[?| | |] ?]; try discriminate; injection E3; intros; subst; auto. }
  exists h, w1, h2, w2, sl, h3, w3. split; auto. split; auto.
  split; [eapply writing_open; eauto|]. split; [|auto 6].
  eapply run_app; [exact R|]. cbn [handle_run]. unfold mbind. rewrite E3. cbn [snd fst].
  rewrite closed_run by auto. rewrite Nm. reflexivity.
Qed.

Lemma close_states b e h w r h' w' : handle_close b e h w = (Ret (r, h'), w') ->
  h_size h' = h_size h /\ h_storage h' = h_storage h /\ h_name h' = h_name h /\ h_schema h' = h_schema h /\
  (is_open h = true ->
   if is_open h' then exists k, r = Er (EIo k (h_name h))
   else exists w1, read b e (h_storage h) (h_name h) (h_schema h) w1 = (Ret r, w')).
Proof.
  unfold handle_close. unfold is_open at 1. destruct (h_stream h) as [s|] eqn:Es.
  2:{ intros [= <- <- <-]. repeat split. discriminate. }
  unfold mbind. intros E.
  destruct (write_padding s w) as [[[[?|k] s1]| | |] w1]; try discriminate;
    [|injection E as <- <- <-; simpl; eauto 10].
  destruct (seek_start s1 w1) as [[[[?|k] s2]| | |] w2]; try discriminate;
    [|injection E as <- <- <-; simpl; eauto 10].
  destruct (write_size b e (h_size h) s2 w2) as [[[[?|k] s3]| | |] w3]; try discriminate;
    [|injection E as <- <- <-; simpl; eauto 10].
  destruct (read b e (h_storage h) (h_name h) (h_schema h) w3) as [[x| | |] w4] eqn:Er; try discriminate.
  injection E as <- <- <-. simpl. eauto 10.
Qed.

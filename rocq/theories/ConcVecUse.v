(** External vectors and multivectors of processes: what is read afterwards. *)
From Verif Require Import Base BaseFacts Codec CodecSpec CodecFacts Structs StructsSpec StructsFacts.
From Verif Require Import Views ViewsSpec ViewsFacts Storage PathFacts StorageSpec StorageFacts StorageMore StorageUse.
From Verif Require Import Writers WritersSpec HandleFacts EncodeFacts ExtVecFacts MultiViews MultiSpec MultiViewFacts MultiVecFacts MultiVecUse.
From Verif Require Import Conc ConcFacts ConcSpec ConcVec ConcUse ConcFail ConcFailSpec ConcFailUse.
Local Open Scope list_scope.
Local Open Scope Z_scope.
Local Arguments firstn : simpl never.
Local Arguments skipn : simpl never.

(** * Closing *)
Lemma flush_keeps b v w r v' w' : ev_flush b v w = (Ret (r, v'), w') ->
  h_storage (ev_handle v') = h_storage (ev_handle v) /\ h_name (ev_handle v') = h_name (ev_handle v) /\
  h_schema (ev_handle v') = h_schema (ev_handle v).
Proof.
  unfold ev_flush, handle_write, mbind, lift, mret. destruct (usub b _ _) as [n| | |]; try discriminate.
  destruct (slice_range _ _ _) as [d| | |]; try discriminate.
  destruct (h_stream (ev_handle v)) as [s|]; [|intros [= _ <- _]; auto].
  destruct (write_all s (sl_bytes d) w) as [[[[u|x] s1]| | |] w1]; try discriminate.
  - destruct (uadd b _ _) as [n'| | |]; try discriminate. intros [= _ <- _]. auto.
  - intros [= _ <- _]. auto.
Qed.
Lemma close_vector b e v w :
  match ev_finish b e v w with
  | (Ret (Ok _), w') => ev_close b e v w = read b e (h_storage (ev_handle v)) (h_name (ev_handle v)) (h_schema (ev_handle v)) w'
  | (Ret (Er x), w') => ev_close b e v w = (Ret (Er x), w')
  | (Panic, w') => ev_close b e v w = (Panic, w')
  | (UB, w') => ev_close b e v w = (UB, w')
  | (Crash, w') => ev_close b e v w = (Crash, w')
  end.
Proof.
  unfold ev_finish, ev_close, mbind.
  destruct (ev_flush b v w) as [[[[u|x] v1]| | |] w1] eqn:E; try reflexivity; cbv beta iota.
  - apply flush_keeps in E. destruct E as (<- & <- & <-).
    assert (X := close_is_finish b e (ev_handle v1) w1).
    destruct (finish_handle b e (ev_handle v1) w1) as [[[[u'|x] h1]| | |] w2] eqn:F; try (rewrite X; reflexivity).
    + assert (O : is_open h1 = false).
      { unfold finish_handle, mbind, mret in F. destruct (h_stream (ev_handle v1)); [|discriminate].
        destruct (handle_finish b e (ev_handle v1) w1) as [[[?|?]| | |] ?]; try discriminate. injection F as _ <- _. reflexivity. }
      rewrite X. unfold handle_drop, mbind, mret, mpanic. cbn [snd fst]. rewrite O. cbn.
      destruct (read _ _ _ _ _ w2) as [[r| | |] w3]; cbn; try rewrite O; reflexivity.
    + destruct X as (h2 & -> & O). unfold handle_drop, mret, mpanic. cbn [snd fst]. rewrite O. destruct (is_open h1); reflexivity.
  - destruct (handle_drop false (ev_handle v1) w1) as [[a| | |] w2]; reflexivity.
Qed.

(** * The calls *)
Section Calls.
Variables (b : build) (e : endian).
Lemma chain_chunks cs G : forall n s, peq (chain b cs n s G)
  (pbind (chunks_p b cs n s) (fun r => match r with Ok r => G (fst r) (snd r) | Er _ => Done Panic end)).
Proof.
  induction cs as [|c cs IH]; intros n s; cbn [chain chunks_p]; [apply peq_refl|].
  unfold write_then, pstry. eapply peq_trans; [|apply peq_assoc]. apply peq_bind; [apply peq_refl|].
  intros [[u|k] s']; [|apply peq_refl]. destruct (uadd b n (len c)); cbn [pbind]; try apply peq_refl. apply IH.
Qed.
Lemma vector_calls lim s base name schema els : job_typed (JVector b e lim s base name schema els) ->
  exists cs, List.concat cs = elements_bytes s els /\ forall w,
    vector_session b e lim s (FileStorage 0 base) name schema els w =
    match create_handle b e (FileStorage 0 base) name schema w with
    | (Ret (Er k), w1) => (Ret (Er (EIo k name)), w1)
    | (Ret (Ok h), w1) =>
        match (let? h := handle_writes b cs h in handle_finish b e h) w1 with
        | (Ret (Ok _), w2) => (Ret (Ok tt), w2)
        | (Ret (Er _), w2) | (Panic, w2) => (Panic, w2)
        | (UB, w2) => (UB, w2)
        | (Crash, w2) => (Crash, w2)
        end
    | (Panic, w1) => (Panic, w1)
    | (UB, w1) => (UB, w1)
    | (Crash, w1) => (Crash, w1)
    end.
Proof.
  intros (Hwf & Fs & L). destruct (vector_peq b e lim s base name schema els Hwf Fs L) as (cs & E & Pe). exists cs. split; auto.
  intros w. assert (J := interp_job (JVector b e lim s base name schema els) w). cbn [job_p job_m] in J. rewrite <- J, (interp_peq _ _ Pe w).
  clear J Pe. unfold vector_core, open_then. rewrite interp_bind. unfold mbind.
  destruct (same_create_handle b e base name schema w) as (X & Q). rewrite <- X in Q |- *. unfold create_handle_p, ptry in Q |- *.
  rewrite interp_bind in Q |- *. unfold mbind in Q |- *.
  destruct (interp (open_p b e base name schema) w) as [[[sm|k]| | |] w1]; try reflexivity. cbn [interp lift]. unfold lift.
  cbn [interp] in Q. unfold lift in Q. specialize (Q _ _ eq_refl). cbn in Q. destruct Q as (sm' & [= <-] & Hs).
  rewrite (interp_peq _ _ (chain_chunks cs _ 0 sm) w1), interp_bind. unfold mbind, mtry.
  destruct (same_chunks b _ (FileStorage 0 base) name schema cs 0 sm Hs w1) as (Y & Q). unfold mbind. rewrite <- Y in Q |- *.
  unfold ptry in Q |- *. rewrite interp_bind in Q |- *. unfold mbind in Q |- *.
  destruct (interp (chunks_p b cs 0 sm) w1) as [[[[n2 s2]|k]| | |] w2]; try reflexivity. cbn [interp lift fst snd] in *. unfold lift in *.
  specialize (Q _ _ eq_refl). cbn in Q. destruct Q as (s2' & [= <-] & Hs2).
  destruct (same_finish b e n2 _ s2 (FileStorage 0 base) name schema Hs2 w2) as (Z & _). rewrite <- Z.
  unfold finish_then. rewrite interp_bind. unfold mbind.
  destruct (interp (finish_p b e n2 s2) w2) as [[[u|k]| | |] w3]; reflexivity.
Qed.
End Calls.

(** * Bytes and records *)
Lemma elements_goods s els : wf_struct s -> Forall (sets_ok s) els ->
  exists ms, elements_bytes s els = List.concat ms /\ goods s ms (elements s els).
Proof.
  intros Hwf H. exists (map (fun sets => record_bytes s (apply_sets sets (zero_record s))) els). split; [reflexivity|].
  unfold elements. induction H as [|sets els Hs H IH]; cbn [map]; constructor; auto.
  destruct (handle_good Debug LE s sets [] (zeros (s_size s)) (zeros 8) (zero_record s)) as (m & E & G);
    auto using bytes_ok_zeros, good_zero.
  rewrite (set_bytes Debug LE s sets [] Hwf Hs) in E. cbn [app] in E. injection E as E. apply app_inv_tail in E. rewrite E. exact G.
Qed.
Lemma elements_read s els : wf_struct s -> Forall (sets_ok s) els ->
  bytes_ok (elements_bytes s els) /\ records s (elements_bytes s els) = elements s els /\ array_of s (elements_bytes s els) (elements s els).
Proof.
  intros Hwf H. destruct (elements_goods s els Hwf H) as (ms & -> & G). split; [eapply goods_bytes; eauto|].
  split; [apply goods_records; auto|]. exists ms. split; auto. apply goods_encodes. auto.
Qed.
Lemma starts_bounds ls : forall a, starts a ls = bounds a ls ++ [a + len (List.concat ls)].
Proof.
  induction ls as [|l ls IH]; intros a; cbn [starts bounds List.concat app]; [rewrite len_nil, Z.add_0_r; auto|].
  rewrite IH, len_app, Z.add_assoc. reflexivity.
Qed.
Lemma index_bytes_array size bits ts els : wf_struct (index_struct size bits) ->
  array_of (index_struct size bits) (index_bytes size bits ts els)
    (map (fun x => [x]) (bounds 0 (map (items_bytes ts) els) ++ [len (List.concat (map (items_bytes ts) els))])).
Proof.
  intros Hwi. unfold index_bytes. rewrite starts_bounds, Z.add_0_l. generalize (bounds 0 (map (items_bytes ts) els) ++ [len (List.concat (map (items_bytes ts) els))]).
  intros l. exists (map (fun x => record_bytes (index_struct size bits) [x]) l). split; auto.
  induction l as [|x l IH]; cbn [map]; constructor; auto. apply record_bytes_encodes; auto.
Qed.
Lemma items_read ts els : wf_vdesc ts -> Forall (items_ok ts) els -> Forall2 (bucket_of ts) (map (items_bytes ts) els) (buckets ts els).
Proof. intros Hwf H. unfold buckets. induction H; cbn [map]; constructor; auto. apply items_bytes_bucket; auto. Qed.

(** * Files that hold what belongs into them *)
Definition holds (w : world) (j : job) : Prop := forall k c, In (k, c) (job_files j) -> w_files w k = Some c.
Lemma vector_read j b e lim s base name schema els w : j = JVector b e lim s base name schema els -> holds w j -> job_typed j ->
  schema_ok (FileStorage 0 base) schema -> forall b' e', exists sl, fresh_read b' e' base name schema w = Ret (Ok sl) /\ slice_ok sl /\
    records s (sl_bytes sl) = elements s els /\ array_of s (sl_bytes sl) (elements s els).
Proof.
  intros -> H (Hwf & Fs & L) (U & _ & _ & Ns) b' e'. destruct (elements_read s els Hwf Fs) as (B & R & A).
  destruct (fresh_read_framed b' e' base name w (elements_bytes s els) schema) as (sl & E & Eb & So); auto.
  - apply H. left. reflexivity.
  - apply H. right. left. reflexivity.
  - split; [auto|lia].
  - exists sl. rewrite Eb. auto.
Qed.
Lemma multi_read j b e lim size bits ts base name schema els w : j = JMulti b e lim size bits ts base name schema els -> holds w j -> job_typed j ->
  mv_schema_ok (FileStorage 0 base) schema -> forall b' e', exists iv d,
    fresh_read b' e' base (index_name name) (index_schema schema) w = Ret (Ok iv) /\ fresh_read b' e' base name schema w = Ret (Ok d) /\
    mav_shows ts size bits (mkMav iv d) (buckets ts els).
Proof.
  intros -> H (Hwi & Hwf & Fs & L1 & L2 & L3) Sok b' e'. assert (Soki := index_schema_ok _ _ Sok). destruct Sok as ((U & _ & _ & Ns) & _).
  destruct Soki as (Ui & _ & _ & Nsi).
  set (bs := map (items_bytes ts) els) in *. assert (F := items_read ts els Hwf Fs). fold bs in F.
  assert (A := index_bytes_array size bits ts els Hwi). fold bs in A.
  destruct (index_array Debug LE size bits Hwi _ _ (bounds_range bits bs L1) A) as (R & B & _).
  assert (Bb := buckets_bytes _ _ _ Hwf F).
  destruct (fresh_read_framed b' e' base (index_name name) w (index_bytes size bits ts els) (index_schema schema)) as (iv & E1 & Eb1 & So1); auto.
  { apply H. left. reflexivity. }
  { apply H. right. left. reflexivity. }
  { split; [auto|lia]. }
  destruct (fresh_read_framed b' e' base name w (List.concat bs) schema) as (d & E2 & Eb2 & So2); auto.
  { apply H. right. right. left. reflexivity. }
  { apply H. right. right. right. left. reflexivity. }
  { split; [auto|lia]. }
  exists iv, d. split; auto. split; auto. apply (parts_show size bits ts bs); auto. rewrite Eb1. exact R.
Qed.

(** * Processes that agree *)
Lemma agree_holds pss w w' os (C : key -> list Z) : processes_ok w pss ->
  (forall j k c, In j (List.concat pss) -> In (k, c) (job_files j) -> c = C k) ->
  pool_run w (map jobs_p pss) w' (map Done os) ->
  exists ds, Forall2 (fun js x => ended w' js (fst x) (snd x)) pss (combine ds os) /\
    length ds = length pss /\ length os = length pss /\
    forall d j, In d ds -> In j d -> holds w' j /\ job_typed j.
Proof.
  intros Ok Ag R. destruct (processes_agree pss w w' os C Ok Ag R) as (ds & D1 & D2 & D3 & D4 & _). exists ds.
  split; auto. split; auto. split; auto. intros d j Hd Hj. split; [intros k c; apply (D4 d j); auto|].
  assert (Hin : In j (List.concat pss)).
  { clear - D1 D2 D3 Hd Hj. revert ds os D1 D2 D3 Hd. induction pss as [|js pss IH]; intros ds os D1 D2 D3 Hd.
    - destruct ds; [destruct Hd|discriminate].
    - destruct ds as [|d1 ds]; [discriminate|]. destruct os as [|o os]; [discriminate|]. simpl in D1.
      inversion D1 as [|? ? ? ? He Hr]; subst. simpl. apply in_app_iff. destruct Hd as [<-|Hd].
      + left. destruct He as [(E & _)|(rest & b0 & e0 & base0 & an0 & as0 & E & _)]; simpl in E; rewrite E in *; auto.
        apply in_app_iff. auto.
      + right. simpl in D2, D3. eapply IH; eauto. }
  destruct Ok as (Ok & _). apply (Ok j Hin).
Qed.

(** * Failures *)
Lemma write_then_ret b c n s G r w w' : interp (write_then b c n s G) w = (Ret r, w') ->
  exists n1 s1 w1, interp (G n1 s1) w1 = (Ret r, w').
Proof.
  unfold write_then. rewrite interp_bind. unfold mbind.
  destruct (interp (write_all_p s c) w) as [[[[u|k] s']| | |] w1]; try discriminate. rewrite interp_bind. unfold mbind. cbn [interp]. unfold lift.
  destruct (uadd b n (len c)) as [n'| | |]; try discriminate. eauto.
Qed.
Lemma chain2_ret b cs G r w' : forall n1 s1 n2 s2 w, interp (chain2 b cs n1 s1 n2 s2 G) w = (Ret r, w') ->
  exists n1 s1 n2 s2 w1, interp (G n1 s1 n2 s2) w1 = (Ret r, w').
Proof.
  induction cs as [|[[|] c] cs IH]; intros n1 s1 n2 s2 w H; cbn [chain2] in H; [eauto 10| |];
    (apply write_then_ret in H; destruct H as (n & s & w1 & H); eauto).
Qed.
Lemma finish_then_ret b e n s G r w w' : interp (finish_then b e n s G) w = (Ret r, w') -> exists w1, interp G w1 = (Ret r, w').
Proof.
  unfold finish_then. rewrite interp_bind. unfold mbind.
  destruct (interp (finish_p b e n s) w) as [[[u|k]| | |] w1]; try discriminate. eauto.
Qed.
Lemma open_create b e base name schema w :
  match interp (open_p b e base name schema) w with
  | (Ret (Er k), w1) => create_handle b e (FileStorage 0 base) name schema w = (Ret (Er k), w1)
  | _ => True
  end.
Proof.
  destruct (same_create_handle b e base name schema w) as (X & _). rewrite <- X. unfold create_handle_p, ptry. rewrite interp_bind. unfold mbind.
  destruct (interp (open_p b e base name schema) w) as [[[s|k]| | |] w1]; auto.
Qed.
Lemma multi_errors b e lim size bits ts base name schema els w r w' : job_typed (JMulti b e lim size bits ts base name schema els) ->
  multi_session b e lim size bits ts (FileStorage 0 base) name schema els w = (Ret r, w') ->
  r = Ok tt \/ exists k, r = Er (EIo k name) /\
    create_handle b e (FileStorage 0 base) (index_name name) (index_schema schema) w = (Ret (Er k), w').
Proof.
  intros (Hwi & Hwf & Fs & L1 & L2 & L3) R. destruct (multi_peq b e lim size bits ts base name schema Hwi Hwf els Fs L1 L2 L3) as (cs & _ & _ & Pe).
  assert (J := interp_job (JMulti b e lim size bits ts base name schema els) w). cbn [job_p job_m] in J. rewrite <- J, (interp_peq _ _ Pe w) in R.
  clear J Pe. unfold multi_core in R. unfold open_then at 1 in R. rewrite interp_bind in R. unfold mbind in R.
  assert (X := open_create b e base (index_name name) (index_schema schema) w).
  destruct (interp (open_p b e base (index_name name) (index_schema schema)) w) as [[[s1|k]| | |] w1]; try discriminate.
  - left. clear X. unfold open_then in R. rewrite interp_bind in R. unfold mbind in R.
    destruct (interp (open_p b e base name schema) w1) as [[[s2|k]| | |] w2]; try discriminate.
    apply chain2_ret in R. destruct R as (n1 & s1' & n2 & s2' & w3 & R).
    apply finish_then_ret in R. destruct R as (w4 & R). apply finish_then_ret in R. destruct R as (w5 & R).
    cbn [interp] in R. unfold lift in R. congruence.
  - right. exists k. cbn [interp] in R. unfold lift in R. injection R as <- <-. auto.
Qed.

(** * Beside others *)
Lemma beside_holds js w w' j : process_ok w js -> beside (spares js) w (jobs_p js) w' (Done (Ret (Ok tt))) -> In j js ->
  (forall k c, In (k, c) (job_files j) -> final js k = Some c) -> holds w' j /\ job_typed j.
Proof.
  intros Ok R Hj H. destruct (beside_unharmed js w w' _ Ok R) as (_ & _ & U). destruct (U eq_refl) as (Uf & _).
  split; [intros k c Hk; auto|]. destruct Ok as (Ok & _). apply (Ok j Hj).
Qed.

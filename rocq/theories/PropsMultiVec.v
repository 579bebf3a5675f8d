(** Properties C26, C34, C37, C38, C42, C43, C47, C49, C55, C60 of multivectors.
    Vocabulary: [mv_all], [mv_kept] (items added after every grow, or after every
    grow that succeeded), [buckets] (their values), [mv_fits] (the data fits the
    index type), [mav_shows] (a view with these buckets; see C39-C41 for what its
    methods return). *)
From Verif Require Import Base BaseFacts Codec CodecSpec Structs StructsSpec StructsFacts Views ViewsSpec.
From Verif Require Import Storage PathFacts StorageSpec StorageFacts StorageMore StorageUse PropsStorage.
From Verif Require Import Writers WritersSpec HandleFacts EncodeFacts ElsewhereFacts ExtVecFacts ExtVecUse.
From Verif Require Import MultiViews MultiSpec MultiViewFacts MultiViewUse PropsMultiViews MultiVecFacts MultiVecUse.
Local Open Scope list_scope.
Local Open Scope Z_scope.

(** ** Example: three buckets, the second one empty, with other resources used in between. *)
Definition mx_ops :=
  [MGrow [(0%nat, [(0%nat, 197121)])];
   MOther (fun w => snd (write Debug LE ex_fs "y" [66] [1; 2] w)); MGrow [];
   MOther (fun w => snd (read Debug LE (FileStorage 7 "/d") "x" [65] w));
   MGrow [(1%nat, [(0%nat, 9); (1%nat, -2); (0%nat, 10)]); (0%nat, [(0%nat, 16777215)])]].
Lemma mx_ops_ok : Forall (mv_op_ok ex_fs "x" ex_ts) mx_ops.
Proof.
  unfold mx_ops.
  assert (Vx : valid_name "x") by (repeat split; discriminate).
  assert (Vi : valid_name (index_name "x")) by (repeat split; discriminate).
  assert (Vy : valid_name "y") by (repeat split; discriminate).
  assert (U1 : unrelated "x" "y") by (repeat split; discriminate).
  assert (U2 : unrelated (index_name "x") "y") by (repeat split; discriminate).
  constructor; [|constructor; [|constructor; [|constructor; [|constructor; [|constructor]]]]]; cbn [mv_op_ok]; unfold items_ok.
  - repeat (constructor; [split; [cbn; lia|repeat (constructor; [split; cbn; lia|]); constructor]|]). constructor.
  - apply elsewhere_two; apply write_elsewhere; auto.
  - constructor.
  - apply elsewhere_two; apply own_reader_elsewhere; discriminate.
  - repeat (constructor; [split; [cbn; lia|repeat (constructor; [split; cbn; lia|]); constructor]|]). constructor.
Qed.

Lemma mx_fresh_file : mv_fresh ex_fs "x" ex_w.
Proof. split; split; reflexivity. Qed.
Lemma mx_fresh_mem : mv_fresh ex_ms "x" ex_w.
Proof. split; split; split; reflexivity. Qed.
Lemma mx_schema st : mv_schema_ok st [65].
Proof.
  split; [|unfold isize_max; vm_compute; congruence].
  split; [reflexivity|]. split; [repeat constructor; unfold is_byte; lia|]. split; [unfold isize_max; vm_compute; congruence|discriminate].
Qed.
Lemma mx_unblocked : mv_unblocked ex_fs "x" ex_w.
Proof. split; (split; (split; [reflexivity|left; split; [repeat split; discriminate|apply ex_base_ready]])). Qed.
Lemma mx_quiet : quiet ex_fs (mv_others mx_ops) ex_w.
Proof.
  right. split; [reflexivity|]. intros f [<-|[<-|[]]] w H.
  - destruct (write Debug LE ex_fs "y" [66] [1; 2] w) as [o w'] eqn:E. cbn [snd].
    destruct (write_touches _ _ _ _ _ _ _ _ _ E) as (_ & _ & C). exact (C H).
  - exact (read_calm _ _ _ _ _ _ H).
Qed.
Lemma mx_fits : mv_fits 4 32 ex_ts mx_ops.
Proof. split; [vm_compute; congruence|]. split; unfold isize_max; vm_compute; congruence. Qed.

(** C37: without I/O failures a session succeeds and gives the buckets ... *)
Theorem C37_session_exact b e lim size bits ts st name schema ops w :
  wf_struct (index_struct size bits) -> wf_vdesc ts -> valid_name name -> mv_schema_ok st schema -> maps_ok w ->
  mv_fresh st name w -> mv_unblocked st name w -> Forall (mv_op_ok st name ts) ops -> mv_fits size bits ts ops ->
  quiet st (mv_others ops) w ->
  exists flags v w', mv_session b e lim size bits ts st name schema ops w = (Ret (Ok (flags, Ok v)), w') /\
    Forall (eq true) flags /\ mav_shows ts size bits v (buckets ts (mv_all ops)) /\
    mav_len b size bits v = Ret (mv_grows ops) /\
    (forall i, 0 <= i < mv_grows ops -> exists d, mav_at b e size bits v i = Ret d /\
       bucket_yields b e ts d (nth (Z.to_nat i) (buckets ts (mv_all ops)) [])) /\
    forall b' e', (exists iv w'', read b' e' st (index_name name) (index_schema schema) (set_faults [] w') = (Ret (Ok iv), w'') /\
                     sl_bytes iv = sl_bytes (ma_index v)) /\
                  (exists d w'', read b' e' st name schema (set_faults [] w') = (Ret (Ok d), w'') /\
                     sl_bytes d = sl_bytes (ma_data v)).
Proof.
  intros Hwi Hwf Hn Sok MO F Un Ops Fit Q.
  destruct (mv_progress b e lim size bits ts st name schema Hwi Hwf Hn ops w Sok MO F Un Ops Fit Q)
    as (v & w1 & flags & v' & w2 & iv & d & w3 & C & R & Fl & Cl).
  destruct (mv_closed_ok b e lim size bits ts st name schema Hwi Hwf Hn ops w v w1 flags v' w2 iv d w3 Sok MO F Ops Fit C R Cl (or_introl Fl))
    as (Lf & MO3 & Sh & Of & Li & S1 & S2 & D1 & D2 & _).
  exists flags, (mkMav iv d), w3. split.
  { unfold mv_session, mtry, mbind. rewrite C. cbn beta iota. rewrite R. cbn beta iota. cbn [snd fst]. rewrite Cl. reflexivity. }
  rewrite (mv_kept_all ops flags Lf Fl) in *. split; auto. split; auto.
  assert (Lg : Z.of_nat (length (buckets ts (mv_all ops))) = mv_grows ops).
  { unfold buckets. rewrite map_length. apply mv_all_length. }
  split; [rewrite <- Lg; apply (mav_shows_len b size bits Hwi ts _ _ Sh)|].
  split.
  - intros i Hi. destruct (C39_buckets_at b e ts size bits _ _ i Hwi Hwf Sh ltac:(lia)) as (x & E & _ & Y). eauto.
  - intros b' e'. destruct S1 as (_ & _ & F1 & F2). destruct S2 as (_ & _ & F3 & F4). split; apply found_reads; auto.
    + apply index_schema_ok; auto.
    + apply Sok.
Qed.
Print Assumptions C37_session_exact.

Example C37_example :
  wf_struct (index_struct 4 32) /\ wf_vdesc ex_ts /\ valid_name "x" /\ mv_schema_ok ex_fs [65] /\ maps_ok ex_w /\
  mv_fresh ex_fs "x" ex_w /\ mv_unblocked ex_fs "x" ex_w /\ Forall (mv_op_ok ex_fs "x" ex_ts) mx_ops /\
  mv_fits 4 32 ex_ts mx_ops /\ quiet ex_fs (mv_others mx_ops) ex_w /\
  buckets ex_ts (mv_all mx_ops) = ex_buckets /\ mv_grows mx_ops = 3 /\
  forall st, st = ex_fs \/ st = ex_ms ->
  match mv_session Debug LE 6 4 32 ex_ts st "x" [65] mx_ops ex_w with
  | (Ret (Ok (flags, Ok v)), w') => flags = repeat true 5 /\ offsets 4 32 v = [0; 4; 4; 13] /\
      omap sl_bytes (mav_at Debug LE 4 32 v 2) = Ret [200; 10; 0; 254; 255; 7; 255; 255; 255]
  | _ => False
  end.
Proof.
  split; [apply ex_index_wf|]. split; [apply ex_ts_wf|]. split; [repeat split; discriminate|]. split; [apply mx_schema|].
  split; [apply ex_maps|]. split; [apply mx_fresh_file|]. split; [apply mx_unblocked|]. split; [apply mx_ops_ok|].
  split; [apply mx_fits|]. split; [apply mx_quiet|]. split; [reflexivity|]. split; [reflexivity|].
  intros st [-> | ->]; vm_compute; repeat split.
Qed.

(** ... and so does every session in which nothing failed. *)
Theorem C37_all_succeed b e lim size bits ts st name schema ops w v w1 flags v' w2 iv d w3 :
  wf_struct (index_struct size bits) -> wf_vdesc ts -> valid_name name -> mv_schema_ok st schema -> maps_ok w ->
  mv_fresh st name w -> Forall (mv_op_ok st name ts) ops -> mv_fits size bits ts ops ->
  create_multi_vector b e st name schema w = (Ret (Ok v), w1) ->
  mv_run b e lim size bits ts ops v w1 = (Ret (flags, v'), w2) -> Forall (eq true) flags ->
  mv_close b e lim size bits v' w2 = (Ret (Ok (iv, d)), w3) ->
  mav_shows ts size bits (mkMav iv d) (buckets ts (mv_all ops)).
Proof.
  intros Hwi Hwf Hn Sok MO F Ops Fit C R Fl Cl.
  destruct (mv_closed_ok b e lim size bits ts st name schema Hwi Hwf Hn ops w v w1 flags v' w2 iv d w3 Sok MO F Ops Fit C R Cl (or_introl Fl))
    as (Lf & MO3 & Sh & _). rewrite (mv_kept_all ops flags Lf Fl) in Sh. exact Sh.
Qed.
Print Assumptions C37_all_succeed.

(** C38: the index of a closed multivector, also after I/O failures. *)
Theorem C38_index_partition b e lim size bits ts st name schema ops w v w1 flags v' w2 iv d w3 :
  wf_struct (index_struct size bits) -> wf_vdesc ts -> valid_name name -> mv_schema_ok st schema -> maps_ok w ->
  mv_fresh st name w -> Forall (mv_op_ok st name ts) ops -> mv_fits size bits ts ops ->
  create_multi_vector b e st name schema w = (Ret (Ok v), w1) ->
  mv_run b e lim size bits ts ops v w1 = (Ret (flags, v'), w2) ->
  mv_close b e lim size bits v' w2 = (Ret (Ok (iv, d)), w3) ->
  (Forall (eq true) flags \/
   forall n c, n = name \/ n = index_name name -> bytes_at (cell_at st n) w3 = Some c -> len c <= isize_max) ->
  let o := offsets size bits (mkMav iv d) in
  hd 1 o = 0 /\ Forall (fun p => fst p <= snd p) (pairs o) /\ last o 0 = sl_len d /\
  length o = S (length (mv_kept ops flags)).
Proof.
  intros Hwi Hwf Hn Sok MO F Ops Fit C R Cl Hd.
  destruct (mv_closed_ok b e lim size bits ts st name schema Hwi Hwf Hn ops w v w1 flags v' w2 iv d w3 Sok MO F Ops Fit C R Cl Hd)
    as (_ & _ & _ & O & _). exact O.
Qed.
Print Assumptions C38_index_partition.

(** The hypotheses hold in [C37_example]; the offsets there are [0; 4; 4; 13]. *)
Example C38_example :
  let o := [0; 4; 4; 13] in
  hd 1 o = 0 /\ pairs o = [(0, 4); (4, 4); (4, 13)] /\ last o 0 = 13 /\ length o = S (length (mv_all mx_ops)).
Proof. repeat split. Qed.

(** C42: the multivector is correct if the data fits the index type ... *)
Theorem C42_width_partial b e lim size bits ts st name schema ops w v w1 flags v' w2 iv d w3 :
  wf_struct (index_struct size bits) -> wf_vdesc ts -> valid_name name -> mv_schema_ok st schema -> maps_ok w ->
  mv_fresh st name w -> Forall (mv_op_ok st name ts) ops ->
  mv_size ts ops < 2 ^ bits -> mv_size ts ops + 16 <= isize_max -> (mv_grows ops + 1) * size + 16 <= isize_max ->
  create_multi_vector b e st name schema w = (Ret (Ok v), w1) ->
  mv_run b e lim size bits ts ops v w1 = (Ret (flags, v'), w2) -> Forall (eq true) flags ->
  mv_close b e lim size bits v' w2 = (Ret (Ok (iv, d)), w3) ->
  forall i, 0 <= i < mv_grows ops -> exists x, mav_at b e size bits (mkMav iv d) i = Ret x /\
    bucket_yields b e ts x (nth (Z.to_nat i) (buckets ts (mv_all ops)) []).
Proof.
  intros Hwi Hwf Hn Sok MO F Ops B1 B2 B3 C R Fl Cl i Hi.
  assert (Sh := C37_all_succeed b e lim size bits ts st name schema ops w v w1 flags v' w2 iv d w3 Hwi Hwf Hn Sok MO F Ops
    (conj B1 (conj B2 B3)) C R Fl Cl).
  destruct (C39_buckets_at b e ts size bits _ _ i Hwi Hwf Sh) as (x & E & _ & Y); eauto.
  unfold buckets. rewrite map_length, mv_all_length. auto.
Qed.
Print Assumptions C42_width_partial.

(** ... but with an index type of 8 bits and 260 bytes of data, everything
    succeeds in both builds and the first of two buckets has 1 of its 65 items. *)
Theorem C42_width_refuted : exists ops,
  wf_struct (index_struct 1 8) /\ Forall (mv_op_ok ex_fs "x" ex_ts) ops /\
  mv_size ex_ts ops = 260 /\
  forall b e, match mv_session b e 6 1 8 ex_ts ex_fs "x" [65] ops ex_w with
  | (Ret (Ok (flags, Ok v)), _) => Forall (eq true) flags /\
      exists d, mav_at b e 1 8 v 0 = Ret d /\
        bucket_of ex_ts (sl_bytes d) [(0%nat, [5])] /\
        nth 0 (buckets ex_ts (mv_all ops)) [] = repeat (0%nat, [5]) 65
  | _ => False
  end.
Proof.
  exists [MGrow (repeat (0%nat, [(0%nat, 5)]) 65); MGrow []].
  split; [apply wf_struct_dec; reflexivity|]. split.
  { constructor; [|constructor; [constructor|constructor]]. cbn [mv_op_ok]. unfold items_ok.
    apply Forall_forall. intros x Hx. apply repeat_spec in Hx. subst.
    split; [cbn; lia|]. constructor; [split; cbn; lia|constructor]. }
  split; [reflexivity|].
  assert (B : bucket_of ex_ts [7; 5; 0; 0] [(0%nat, [5])]).
  { exists [[7; 5; 0; 0]]. split; [reflexivity|]. constructor; [|constructor].
    apply (ex_item 0 [(0%nat, 5)] [5; 0; 0]); [cbn; lia| |reflexivity|reflexivity]. repeat constructor; cbn; lia. }
  intros b e. match goal with |- match ?x with _ => _ end =>
    assert (E : exists w' i d, x = (Ret (Ok ([true; true], Ok (mkMav i d))), w') /\
      omap sl_bytes (mav_at b e 1 8 (mkMav i d) 0) = Ret [7; 5; 0; 0]) end.
  { destruct b, e; eexists; eexists; eexists; (split; [vm_compute; reflexivity|vm_compute; reflexivity]). }
  destruct E as (w' & i & d & -> & E). split; [repeat constructor|].
  destruct (mav_at b e 1 8 (mkMav i d) 0) as [x| | |]; cbn in E; try discriminate. exists x. split; auto.
  injection E as E. rewrite E. split; auto.
Qed.
Print Assumptions C42_width_refuted.

(** C43: whatever I/O failed, and however often grow was retried. *)
Theorem C43_failures_sound b e lim size bits ts st name schema ops w v w1 flags v' w2 iv d w3 :
  wf_struct (index_struct size bits) -> wf_vdesc ts -> valid_name name -> mv_schema_ok st schema -> maps_ok w ->
  mv_fresh st name w -> Forall (mv_op_ok st name ts) ops -> mv_fits size bits ts ops ->
  create_multi_vector b e st name schema w = (Ret (Ok v), w1) ->
  mv_run b e lim size bits ts ops v w1 = (Ret (flags, v'), w2) ->
  mv_close b e lim size bits v' w2 = (Ret (Ok (iv, d)), w3) ->
  (* file sizes are at most isize::MAX *)
  (forall n c, n = name \/ n = index_name name -> bytes_at (cell_at st n) w3 = Some c -> len c <= isize_max) ->
  mav_shows ts size bits (mkMav iv d) (buckets ts (mv_kept ops flags)) /\
  mav_len b size bits (mkMav iv d) = Ret (Z.of_nat (length (mv_kept ops flags))) /\
  forall b' e', (exists iv' w'', read b' e' st (index_name name) (index_schema schema) (set_faults [] w3) = (Ret (Ok iv'), w'') /\
                   sl_bytes iv' = sl_bytes iv) /\
                (exists d' w'', read b' e' st name schema (set_faults [] w3) = (Ret (Ok d'), w'') /\ sl_bytes d' = sl_bytes d).
Proof.
  intros Hwi Hwf Hn Sok MO F Ops Fit C R Cl Hd.
  destruct (mv_closed_ok b e lim size bits ts st name schema Hwi Hwf Hn ops w v w1 flags v' w2 iv d w3 Sok MO F Ops Fit C R Cl (or_intror Hd))
    as (Lf & MO3 & Sh & Of & Li & S1 & S2 & D1 & D2 & _).
  split; auto. split.
  { rewrite (mav_shows_len b size bits Hwi ts _ _ Sh). unfold buckets. rewrite map_length. reflexivity. }
  intros b' e'. destruct S1 as (_ & _ & F1 & F2). destruct S2 as (_ & _ & F3 & F4). split; apply found_reads; auto.
  - apply index_schema_ok; auto.
  - apply Sok.
Qed.
Print Assumptions C43_failures_sound.

(** A flush of the data fails without writing anything: the grow is retried and
    the multivector closes normally.  If it had written a byte, close reports
    that the resource has the wrong size.  If this happens to the index, close
    panics, since it drops the data that is still open. *)
Definition mx_grows :=
  [MGrow [(0%nat, [(0%nat, 1)])]; MGrow [(0%nat, [(0%nat, 2)])]; MGrow [(0%nat, [(0%nat, 3)])]; MGrow [(1%nat, [])]].
Definition mx_go (ops : list mv_op) (f g : list fault) :=
  match create_multi_vector Debug LE ex_fs "x" [65] ex_w with
  | (Ret (Ok v), w1) =>
      match mv_run Debug LE 14 4 32 ex_ts ops v (set_faults f w1) with
      | (Ret (flags, v'), w2) => (flags, mv_close Debug LE 14 4 32 v' (set_faults g w2))
      | (_, w2) => ([], (UB, w2))
      end
  | (_, w1) => ([], (UB, w1))
  end.
Definition mx_seen (r : list bool * (outcome (result (view * slice) rs_error) * world)) :=
  (fst r, omap (fun x => match x with
                         | Ok (iv, d) => Ok (offsets 4 32 (mkMav iv d), sl_bytes d)
                         | Er x => Er x
                         end) (fst (snd r))).
Example C43_example :
  mx_seen (mx_go mx_grows [] []) =
    ([true; true; true; true],
     Ret (Ok ([0; 4; 8; 12; 17], [7; 1; 0; 0; 7; 2; 0; 0; 7; 3; 0; 0; 200; 0; 0; 0; 0]))) /\
  mx_seen (mx_go mx_grows [FErr KOther] []) =
    ([true; true; false; true], Ret (Ok ([0; 4; 8; 13], [7; 1; 0; 0; 7; 2; 0; 0; 200; 0; 0; 0; 0]))) /\
  mx_seen (mx_go mx_grows [FShort 1 KOther] []) = ([true; true; false; true], Ret (Er EUnexpectedDataSize)) /\
  mx_seen (mx_go mx_grows [FOk; FShort 1 KOther] []) = ([true; true; false; true], Panic).
Proof. vm_compute. repeat split. Qed.

(** C34 for multivectors: close returns if nothing failed ... *)
Theorem C34_multi_vector_partial b e lim size bits ts st name schema ops w v w1 flags v' w2 o w3 :
  wf_struct (index_struct size bits) -> wf_vdesc ts -> valid_name name -> mv_schema_ok st schema -> maps_ok w ->
  mv_fresh st name w -> Forall (mv_op_ok st name ts) ops -> mv_fits size bits ts ops ->
  create_multi_vector b e st name schema w = (Ret (Ok v), w1) ->
  mv_run b e lim size bits ts ops v w1 = (Ret (flags, v'), w2) -> Forall (eq true) flags ->
  mv_close b e lim size bits v' w2 = (o, w3) ->
  (forall n c, n = name \/ n = index_name name -> bytes_at (cell_at st n) w3 = Some c -> len c <= isize_max) ->
  is_file st = false \/ w_faults w2 = [] -> exists r, o = Ret r.
Proof.
  intros Hwi Hwf Hn Sok MO F Ops Fit C R Fl Cl Hd Q.
  destruct (mv_close_outcome b e lim size bits ts st name schema Hwi Hwf Hn ops w v w1 flags v' w2 o w3 Sok MO F Ops Fit C R Cl Hd)
    as [X|[(_ & X)|(X & Y & _)]]; auto; [contradiction|]. destruct Q; congruence.
Qed.
Print Assumptions C34_multi_vector_partial.

(** ... but panics whenever writing the index or the data fails, or the index
    cannot be read back: parts that are still open are dropped. *)
Theorem C34_multi_vector_refuted b e lim size bits ts st name schema ops w v w1 flags v' w2 :
  wf_struct (index_struct size bits) -> wf_vdesc ts -> valid_name name -> maps_ok w ->
  mv_fresh st name w -> Forall (mv_op_ok st name ts) ops -> mv_fits size bits ts ops ->
  create_multi_vector b e st name schema w = (Ret (Ok v), w1) ->
  mv_run b e lim size bits ts ops v w1 = (Ret (flags, v'), w2) ->
  (forall k va wa, mv_add_to_index b e lim size bits v' w2 = (Ret (Er k, va), wa) ->
     mv_close b e lim size bits v' w2 = (Panic, wa)) /\
  (forall va wa k vb wb, mv_add_to_index b e lim size bits v' w2 = (Ret (Ok tt, va), wa) ->
     mv_flush b va wa = (Ret (Er k, vb), wb) -> mv_close b e lim size bits v' w2 = (Panic, wb)) /\
  (forall va wa vb wb x wc, mv_add_to_index b e lim size bits v' w2 = (Ret (Ok tt, va), wa) ->
     mv_flush b va wa = (Ret (Ok tt, vb), wb) -> ev_close b e (mv_index vb) wb = (Ret (Er x), wc) ->
     mv_close b e lim size bits v' w2 = (Panic, wc)).
Proof.
  intros Hwi Hwf Hn MO F Ops Fit C R.
  destruct (mv_run_open b e lim size bits ts st name schema Hwi Hwf Hn ops w v w1 _ w2 MO F Ops Fit C R)
    as (_ & [(fl & v0 & E & Op & _)|(E & _)]); [|discriminate]. injection E as <- <-.
  split; [|split].
  - intros k va wa A. assert (Ha := mv_add_to_index_handle b e lim size bits _ _ _ _ _ A).
    unfold mv_close, mbind. rewrite A. cbn beta iota. unfold mv_drop. rewrite Ha, Op, orb_true_r. reflexivity.
  - intros va wa k vb wb A B. assert (Ha := mv_add_to_index_handle b e lim size bits _ _ _ _ _ A).
    rewrite <- Ha in Op. destruct (mv_flush_open b _ _ _ _ _ Op B) as (Ob & _).
    unfold mv_close, mbind. rewrite A. cbn beta iota. rewrite B. cbn beta iota. unfold mv_drop. rewrite Ob, orb_true_r. reflexivity.
  - intros va wa vb wb x wc A B D. assert (Ha := mv_add_to_index_handle b e lim size bits _ _ _ _ _ A).
    rewrite <- Ha in Op. destruct (mv_flush_open b _ _ _ _ _ Op B) as (Ob & _).
    unfold mv_close, mbind. rewrite A. cbn beta iota. rewrite B. cbn beta iota. rewrite D. cbn beta iota.
    unfold handle_drop. rewrite Ob. reflexivity.
Qed.
Print Assumptions C34_multi_vector_refuted.

(** Failures of: the flush of the data; the flush of the index; the read-back of
    the index (after a retried partial write). *)
Example C34_multi_example :
  mx_seen (mx_go mx_grows [] [FErr KOther]) = ([true; true; true; true], Panic) /\
  mx_seen (mx_go mx_grows [] [FOk; FErr KOther]) = ([true; true; true; true], Panic) /\
  mx_seen (mx_go mx_grows [FOk; FShort 1 KOther] []) = ([true; true; false; true], Panic).
Proof. vm_compute. repeat split. Qed.

(** C47 for multivectors. *)
Theorem C47_multi_vector b e lim size bits ts st name schema ops w v w1 flags v' w2 :
  wf_struct (index_struct size bits) -> wf_vdesc ts -> valid_name name -> maps_ok w ->
  mv_fresh st name w -> Forall (mv_op_ok st name ts) ops -> mv_fits size bits ts ops ->
  create_multi_vector b e st name schema w = (Ret (Ok v), w1) ->
  mv_run b e lim size bits ts ops v w1 = (Ret (flags, v'), w2) ->
  (forall w', mv_drop v' w' = (Panic, w')) /\
  (forall va wa vb wb iv wc d h wd, mv_add_to_index b e lim size bits v' w2 = (Ret (Ok tt, va), wa) ->
     mv_flush b va wa = (Ret (Ok tt, vb), wb) -> ev_close b e (mv_index vb) wb = (Ret (Ok iv), wc) ->
     handle_close b e (mv_handle vb) wc = (Ret (Ok d, h), wd) ->
     mv_close b e lim size bits v' w2 = (Ret (Ok (iv, d)), wd)).
Proof.
  intros Hwi Hwf Hn MO F Ops Fit C R.
  destruct (mv_run_open b e lim size bits ts st name schema Hwi Hwf Hn ops w v w1 _ w2 MO F Ops Fit C R)
    as (_ & [(fl & v0 & E & Op & _)|(E & _)]); [|discriminate]. injection E as <- <-.
  split; [intros w'; unfold mv_drop; rewrite Op, orb_true_r; reflexivity|].
  intros va wa vb wb iv wc d h wd A B D G. assert (Cl := handle_close_closed _ _ _ _ _ _ _ G).
  unfold mv_close, mbind. rewrite A. cbn beta iota. rewrite B. cbn beta iota. rewrite D. cbn beta iota. rewrite G. cbn [fst snd].
  unfold handle_drop. rewrite Cl. reflexivity.
Qed.
Print Assumptions C47_multi_vector.

Example C47_multi_example :
  match create_multi_vector Debug LE ex_fs "x" [65] ex_w with
  | (Ret (Ok v), w1) =>
      fst (mv_drop v w1) = Panic /\
      match mv_run Debug LE 14 4 32 ex_ts mx_ops v w1 with
      | (Ret (_, v'), w2) => fst (mv_drop v' w2) = Panic /\ (exists r, fst (mv_close Debug LE 14 4 32 v' w2) = Ret (Ok r))
      | _ => False
      end
  | _ => False
  end.
Proof. vm_compute. split; [reflexivity|]. split; [reflexivity|]. eexists. reflexivity. Qed.

(** C49 for multivectors: both parts are header, data, eight zero bytes. *)
Theorem C49_multi_vector b e lim size bits ts st name schema ops w v w1 flags v' w2 iv d w3 :
  wf_struct (index_struct size bits) -> wf_vdesc ts -> valid_name name -> mv_schema_ok st schema -> maps_ok w ->
  mv_fresh st name w -> Forall (mv_op_ok st name ts) ops -> mv_fits size bits ts ops ->
  create_multi_vector b e st name schema w = (Ret (Ok v), w1) ->
  mv_run b e lim size bits ts ops v w1 = (Ret (flags, v'), w2) ->
  mv_close b e lim size bits v' w2 = (Ret (Ok (iv, d)), w3) ->
  (forall n c, n = name \/ n = index_name name -> bytes_at (cell_at st n) w3 = Some c -> len c <= isize_max) ->
  let buckets := Z.of_nat (length (mv_kept ops flags)) in
  bytes_at (cell_at st name) w3 = Some (le_bytes 8 (len (sl_bytes d)) ++ sl_bytes d ++ zeros 8) /\
  bytes_at (cell_at st (name ++ ".schema")) w3 = Some schema /\
  bytes_at (cell_at st (name ++ "_index")) w3 = Some (le_bytes 8 ((buckets + 1) * size) ++ sl_bytes iv ++ zeros 8) /\
  bytes_at (cell_at st ((name ++ "_index") ++ ".schema")) w3 = Some (str "index(" ++ schema ++ str ")") /\
  len (sl_bytes iv) = (buckets + 1) * size.
Proof.
  intros Hwi Hwf Hn Sok MO F Ops Fit C R Cl Hd.
  destruct (mv_closed_ok b e lim size bits ts st name schema Hwi Hwf Hn ops w v w1 flags v' w2 iv d w3 Sok MO F Ops Fit C R Cl (or_intror Hd))
    as (Lf & MO3 & Sh & Of & Li & (A1 & A2 & _) & (A3 & A4 & _) & D1 & D2 & Sd & Si).
  cbn zeta. rewrite <- Li, <- (len_sl_bytes iv Si). auto.
Qed.
Print Assumptions C49_multi_vector.

Example C49_multi_example :
  let w := snd (snd (mx_go mx_ops [] [])) in
  w_files w (key_of "/d/x") =
    Some [13; 0; 0; 0; 0; 0; 0; 0; 7; 1; 2; 3; 200; 10; 0; 254; 255; 7; 255; 255; 255; 0; 0; 0; 0; 0; 0; 0; 0] /\
  w_files w (key_of "/d/x_index") =
    Some [16; 0; 0; 0; 0; 0; 0; 0; 0; 0; 0; 0; 4; 0; 0; 0; 4; 0; 0; 0; 13; 0; 0; 0; 0; 0; 0; 0; 0; 0; 0; 0] /\
  w_files w (key_of "/d/x_index.schema") = Some (index_schema [65]).
Proof. vm_compute. repeat split. Qed.

(** C26 for multivectors: a session leaves other resources alone, whatever
    fails, if the steps in between do. *)
Theorem C26_multi_vector b e lim size bits ts st st' n m schema ops w o w' :
  valid_name m -> (st = st' /\ unrelated m n /\ unrelated m (index_name n) \/ apart st' st) ->
  wf_struct (index_struct size bits) -> wf_vdesc ts -> valid_name n -> mv_schema_ok st schema -> maps_ok w ->
  mv_fresh st n w -> Forall (mv_op_ok st n ts) ops -> mv_fits size bits ts ops ->
  (forall f, In f (mv_others ops) -> forall w, maps_ok w -> touches (fun c => ~ cells_of st' m c) w (f w)) ->
  mv_session b e lim size bits ts st n schema ops w = (o, w') -> undisturbed st' m w w'.
Proof.
  intros Hm D Hwi Hwf Hn Sok MO F Ops Fit HO R.
  assert (Hi : valid_name (index_name n)) by (apply valid_index; auto).
  assert (D1 : st' = st /\ unrelated m n \/ apart st' st) by (destruct D as [(<- & U & _)|A]; auto).
  assert (D2 : st' = st /\ unrelated m (index_name n) \/ apart st' st) by (destruct D as [(<- & _ & U)|A]; auto).
  destruct (other_cells st' st m n Hm Hn D1) as (N1 & N2). destruct (other_cells st' st m _ Hm Hi D2) as (N3 & N4).
  eapply touches_undisturbed; [eapply (mv_session_touches b e lim size bits ts st n schema Hwi Hwf Hn); try eassumption| |].
  - intros c [Hc|Hc] [->| ->]; auto.
  - intros H. apply H. left. auto.
  - intros H. apply H. right. auto.
Qed.
Print Assumptions C26_multi_vector.

Example C26_multi_example :
  let w := snd (write Debug LE ex_fs "edges" [65] [1] ex_w) in
  valid_name "x" /\ valid_name "edges" /\ unrelated "edges" "x" /\ unrelated "edges" (index_name "x") /\ mv_fresh ex_fs "x" w /\
  omap seen (fst (read Debug LE ex_fs "edges" [65] (snd (mv_session Debug LE 12 4 32 ex_ts ex_fs "x" [65] mx_ops w)))) = Ret (Ok [1]).
Proof.
  cbn zeta. split; [repeat split; discriminate|]. split; [repeat split; discriminate|].
  split; [repeat split; discriminate|]. split; [repeat split; discriminate|]. split; [split; split; vm_compute; reflexivity|].
  vm_compute. reflexivity.
Qed.

(** C55: different names share nothing if they have no dot and none is the
    index of the other ... *)
Theorem C55_names_partial b e lim size bits ts st n m schema ops w o w' :
  no_dot n = true -> no_dot m = true -> n <> m -> m <> index_name n -> n <> index_name m ->
  wf_struct (index_struct size bits) -> wf_vdesc ts -> valid_name n -> valid_name m -> mv_schema_ok st schema -> maps_ok w ->
  mv_fresh st n w -> Forall (mv_op_ok st n ts) ops -> mv_fits size bits ts ops ->
  (forall f, In f (mv_others ops) -> forall w, maps_ok w ->
     touches (fun c => ~ cells_of st m c /\ ~ cells_of st (index_name m) c) w (f w)) ->
  mv_session b e lim size bits ts st n schema ops w = (o, w') ->
  undisturbed st m w w' /\ undisturbed st (index_name m) w w'.
Proof.
  intros Dn Dm Nm N1 N2 Hwi Hwf Hn Hm Sok MO F Ops Fit HO R.
  assert (Ni : index_name m <> index_name n).
  { unfold index_name. intros E. apply Nm. symmetry. eapply sapp_inj_r. exact E. }
  assert (Din := no_dot_index n Dn). assert (Dim := no_dot_index m Dm).
  split; eapply (C26_multi_vector b e lim size bits ts st st n); try eassumption.
  - left. split; auto. split; apply no_dot_unrelated; auto.
  - intros f Hf w0 M0. eapply touches_mono; [|apply HO; eauto]. intros c (A & B). exact A.
  - apply valid_index; auto.
  - left. split; auto. split; apply no_dot_unrelated; auto.
  - intros f Hf w0 M0. eapply touches_mono; [|apply HO; eauto]. intros c (A & B). exact B.
Qed.
Print Assumptions C55_names_partial.

(** ... but a multivector x and a resource x_index do, as do a resource and one
    named like its schema. *)
Theorem C55_names_refuted : forall st, st = ex_fs \/ st = ex_ms ->
  (let w := snd (write Debug LE st "x_index" [66] [1; 2; 3] ex_w) in
   omap seen (fst (read Debug LE st "x_index" [66] w)) = Ret (Ok [1; 2; 3])) /\
  (let w := snd (mv_session Debug LE 14 4 32 ex_ts st "x" [65] mx_grows ex_w) in
   omap seen (fst (read Debug LE st "x_index" (index_schema [65]) w)) <> Ret (Er (EWrongSignature "x_index"))) /\
  (let w := snd (mv_session Debug LE 14 4 32 ex_ts st "x" [65] mx_grows (snd (write Debug LE st "x_index" [66] [1; 2; 3] ex_w))) in
   forall d, omap seen (fst (read Debug LE st "x_index" [66] w)) <> Ret (Ok d)) /\
  (let w := snd (write Debug LE st "x.schema" [66] [1] (snd (write Debug LE st "x" [65] [1; 2; 3] ex_w))) in
   forall d, omap seen (fst (read Debug LE st "x" [65] w)) <> Ret (Ok d)).
Proof.
  intros st [-> | ->]; cbn zeta.
  - split; [vm_compute; reflexivity|]. split; [vm_compute; discriminate|]. split; vm_compute; discriminate.
  - split; [vm_compute; reflexivity|]. split; [vm_compute; discriminate|]. split; vm_compute; discriminate.
Qed.
Print Assumptions C55_names_refuted.

(** C60: what a reader finds if the process dies while a multivector is
    written.  In create: not both parts, if there were none before. *)
Theorem C60_create_partial b e id base name schema w o w1 : let st := FileStorage id base in
  valid_name name -> mv_fresh st name w -> disk_ok w ->
  w_files w (res_key st name) = None -> w_files w (res_key st (index_name name)) = None ->
  create_multi_vector b e st name schema w = (o, w1) -> (forall v, o <> Ret (Ok v)) ->
  forall b' e' s1 s2 iv d, fresh_read b' e' base (index_name name) s1 w1 = Ret (Ok iv) ->
    fresh_read b' e' base name s2 w1 <> Ret (Ok d).
Proof.
  intros st Hn F Do N1 N2 C No b' e' s1 s2 iv d R1 R2.
  destruct (create_mv_cases b e 4 32 [] st name schema Hn w o w1 F C)
    as (_ & [(v & E & _)|(_ & _ & _ & [(P & _)|(_ & P)])]).
  - destruct (No v E).
  - destruct (create_progress_read _ _ _ _ _ _ _ _ _ _ P Do R1) as (pad & E & _). change (res_key (FileStorage id base)) with (res_key st) in E. congruence.
  - destruct (create_progress_read _ _ _ _ _ _ _ _ _ _ P Do R2) as (pad & E & _). change (res_key (FileStorage id base)) with (res_key st) in E. congruence.
Qed.
Print Assumptions C60_create_partial.

(** While buckets are added, or later before close: at most empty parts. *)
Theorem C60_run_partial b e lim size bits ts id base name schema ops w v w1 o w2 : let st := FileStorage id base in
  wf_struct (index_struct size bits) -> wf_vdesc ts -> valid_name name -> maps_ok w ->
  mv_fresh st name w -> Forall (mv_op_ok st name ts) ops -> mv_fits size bits ts ops ->
  create_multi_vector b e st name schema w = (Ret (Ok v), w1) ->
  mv_run b e lim size bits ts ops v w1 = (o, w2) ->
  (forall n c, n = name \/ n = index_name name -> bytes_at (cell_at st n) w2 = Some c -> len c <= isize_max) ->
  forall b' e', (forall s1 iv, fresh_read b' e' base (index_name name) s1 w2 = Ret (Ok iv) -> sl_bytes iv = []) /\
                (forall s2 d, fresh_read b' e' base name s2 w2 = Ret (Ok d) -> sl_bytes d = []).
Proof.
  intros st Hwi Hwf Hn MO F Ops Fit C R Hd b' e'.
  destruct (mv_run_open b e lim size bits ts st name schema Hwi Hwf Hn ops w v w1 _ w2 MO F Ops Fit C R) as ((U1 & U2) & _).
  split.
  - intros s1 iv Rd. eapply (unsealed_read b' e' id base (index_name name)); eauto.
    all: first [exact U1 | exact U2 | intros c Hc; eapply (Hd (index_name name)); eauto].
  - intros s2 d Rd. eapply (unsealed_read b' e' id base name); eauto.
    all: first [exact U1 | exact U2 | intros c Hc; eapply (Hd name); eauto].
Qed.
Print Assumptions C60_run_partial.

(** In close: each part is empty or complete. *)
Theorem C60_close_partial b e lim size bits ts id base name schema ops w v w1 flags v' w2 w3 : let st := FileStorage id base in
  wf_struct (index_struct size bits) -> wf_vdesc ts -> valid_name name -> mv_schema_ok st schema -> maps_ok w ->
  mv_fresh st name w -> Forall (mv_op_ok st name ts) ops -> mv_fits size bits ts ops ->
  create_multi_vector b e st name schema w = (Ret (Ok v), w1) ->
  mv_run b e lim size bits ts ops v w1 = (Ret (flags, v'), w2) ->
  mv_close b e lim size bits v' w2 = (Crash, w3) ->
  (forall n c, n = name \/ n = index_name name -> bytes_at (cell_at st n) w3 = Some c -> len c <= isize_max) ->
  forall b' e' s1 s2 iv d,
  fresh_read b' e' base (index_name name) s1 w3 = Ret (Ok iv) -> fresh_read b' e' base name s2 w3 = Ret (Ok d) ->
  s1 = index_schema schema /\ s2 = schema /\
  (mav_shows ts size bits (mkMav iv d) (buckets ts (mv_kept ops flags)) \/ sl_bytes iv = [] \/ sl_bytes d = []).
Proof.
  intros st Hwi Hwf Hn Sok MO F Ops Fit C R Cl Hd b' e' s1 s2 iv d R1 R2.
  destruct (mv_close_outcome b e lim size bits ts st name schema Hwi Hwf Hn ops w v w1 flags v' w2 _ w3 Sok MO F Ops Fit C R Cl Hd)
    as [(r & X)|[(X & _)|(_ & _ & [X|(_ & bs & Di & FB & L1 & L2 & A & U1 & U2)])]]; try discriminate.
  destruct Fit as (B1 & B2 & B3). pose proof Hwi as (Hpos & _). change (s_size (index_struct size bits)) with size in Hpos.
  assert (HB : len (concat bs) < 2 ^ bits) by lia.
  destruct (index_array b e size bits Hwi _ Di (bounds_range bits bs HB) A) as (Rc & Db & Ld).
  rewrite app_length, bounds_length in Ld. cbn [length] in Ld.
  assert (Dd : data_ok (concat bs)) by (split; [eapply buckets_bytes; eauto|lia]).
  assert (Ddi : data_ok Di) by (split; [exact Db|nia]).
  destruct (unfinished_read b' e' id base _ _ _ w3 s1 iv Ddi U1 (fun c Hc => Hd _ c (or_intror eq_refl) Hc) R1) as (-> & E1).
  destruct (unfinished_read b' e' id base _ _ _ w3 s2 d Dd U2 (fun c Hc => Hd _ c (or_introl eq_refl) Hc) R2) as (-> & E2).
  split; auto. split; auto.
  destruct E1 as [E1|(E1 & _)]; auto. destruct E2 as [E2|(E2 & _)]; auto. left.
  destruct U1 as (_ & c1 & Bc1 & Oc1 & _). destruct U2 as (_ & c2 & Bc2 & Oc2 & _).
  assert (Si := fresh_read_slice b' e' id base _ _ w3 c1 iv Bc1 (conj Oc1 (Hd _ c1 (or_intror eq_refl) Bc1)) R1).
  assert (Sd := fresh_read_slice b' e' id base _ _ w3 c2 d Bc2 (conj Oc2 (Hd _ c2 (or_introl eq_refl) Bc2)) R2).
  apply (parts_show size bits ts bs _ iv d FB Si Sd); auto. rewrite E1. exact Rc.
Qed.
Print Assumptions C60_close_partial.

(** One bucket with 8 bytes of data.  The process dies after the index is
    complete and before the padding of the data: a reader opens both parts, but
    the only bucket cannot be accessed.  If it dies in the padding of the index,
    even the number of buckets cannot be determined. *)
Definition mx_bucket8 := [MGrow [(0%nat, [(0%nat, 5)]); (0%nat, [(0%nat, 6)])]].
Theorem C60_crash_refuted :
  Forall (mv_op_ok ex_fs "x" ex_ts) mx_bucket8 /\
  (let r := snd (mx_go mx_bucket8 [] (repeat FOk 7 ++ [FCrash 0])) in
   fst r = Crash /\
   match fresh_read Debug LE "/d" (index_name "x") (index_schema [65]) (snd r), fresh_read Debug LE "/d" "x" [65] (snd r) with
   | Ret (Ok iv), Ret (Ok d) => mav_len Debug 4 32 (mkMav iv d) = Ret 1 /\ mav_at Debug LE 4 32 (mkMav iv d) 0 = Panic
   | _, _ => False
   end) /\
  (let r := snd (mx_go mx_bucket8 [] (repeat FOk 2 ++ [FCrash 0])) in
   fst r = Crash /\
   match fresh_read Debug LE "/d" (index_name "x") (index_schema [65]) (snd r), fresh_read Debug LE "/d" "x" [65] (snd r) with
   | Ret (Ok iv), Ret (Ok d) => mav_len Debug 4 32 (mkMav iv d) = Panic /\ mav_len Release 4 32 (mkMav iv d) = Ret (2 ^ 64 - 1)
   | _, _ => False
   end).
Proof.
  split.
  { constructor; [|constructor]. cbn [mv_op_ok]. unfold items_ok.
    repeat (constructor; [split; [cbn; lia|repeat (constructor; [split; cbn; lia|]); constructor]|]). constructor. }
  split; (split; [vm_compute; reflexivity|]); vm_compute; repeat split.
Qed.
Print Assumptions C60_crash_refuted.

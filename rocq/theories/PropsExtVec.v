(** Properties C26, C31-C34, C36, C47, C49, C57, C58 of external vectors. *)
From Verif Require Import Base BaseFacts Codec CodecSpec Structs StructsSpec StructsFacts Views ViewsSpec.
From Verif Require Import Storage PathFacts StorageSpec StorageFacts StorageMore StorageUse PropsStorage.
From Verif Require Import Writers WritersSpec HandleFacts EncodeFacts ElsewhereFacts ExtVecFacts ExtVecUse.
Local Open Scope list_scope.
Local Open Scope Z_scope.

(** ** Example: elements of 3 bytes, flushed when more than 12 bytes are
    buffered, with other resources written in between. *)
Definition ex_struct := mkStruct 3 [mkField U16 0 12; mkField I8 12 5; mkField PBool 23 1].
Lemma ex_struct_wf : wf_struct ex_struct.
Proof. apply wf_struct_dec. reflexivity. Qed.
Definition ex_ops :=
  [EGrow [(0%nat, 513); (1%nat, -3)]; EGrow [(2%nat, 1)];
   EOther (fun w => snd (write Debug LE ex_fs "y" [66] [1; 2] w)); EGrow [];
   EOther (fun w => snd (read Debug LE ex_fs "y" [66] w));
   EOther (fun w => snd (read Debug LE (FileStorage 7 "/d") "x" [65] w)); EGrow [(0%nat, 4095); (1%nat, 15); (0%nat, 1)]].
Lemma ex_ops_ok : Forall (ev_op_ok ex_fs "x" ex_struct) ex_ops.
Proof.
  unfold ex_ops.
  assert (U : unrelated "x" "y") by (repeat split; discriminate).
  assert (Vx : valid_name "x") by (repeat split; discriminate).
  assert (Vy : valid_name "y") by (repeat split; discriminate).
  repeat (constructor; [cbn [ev_op_ok];
    lazymatch goal with
    | |- sets_ok _ _ => repeat (constructor; [split; [cbn; lia|cbn; lia]|]); constructor
    | |- _ => first [apply write_elsewhere; auto; fail|apply own_reader_elsewhere; discriminate|apply read_elsewhere; auto; fail]
    end|]).
  constructor.
Qed.
Definition ex_records := [[513; -3; 0]; [0; 0; 1]; [0; 0; 0]; [1; 15; 0]].

Lemma ex_fresh_mem : fresh_name ex_ms "x" ex_w.
Proof. split; split; reflexivity. Qed.
Lemma ex_fresh_file : fresh_name ex_fs "x" ex_w.
Proof. split; reflexivity. Qed.
Lemma ex_short_schema st : schema_ok st [65].
Proof.
  split; [reflexivity|]. split; [repeat constructor; unfold is_byte; lia|]. split; [unfold isize_max; vm_compute; congruence|discriminate].
Qed.
Lemma ex_unblocked : unblocked ex_fs "x" ex_w.
Proof. split; (split; [reflexivity|left; split; [repeat split; discriminate|apply ex_base_ready]]). Qed.
Lemma ex_quiet : quiet ex_fs (others ex_ops) ex_w.
Proof.
  right. split; [reflexivity|]. intros f [<-|[<-|[<-|[]]]] w H.
  - destruct (write Debug LE ex_fs "y" [66] [1; 2] w) as [o w'] eqn:E. cbn [snd].
    destruct (write_touches _ _ _ _ _ _ _ _ _ E) as (_ & _ & C). exact (C H).
  - exact (read_calm _ _ _ _ _ _ H).
  - exact (read_calm _ _ _ _ _ _ H).
Qed.

(** C31: without I/O failures a session succeeds and gives the elements. *)
Theorem C31_session_exact b e lim s st name schema ops w :
  wf_struct s -> schema_ok st schema -> maps_ok w -> fresh_name st name w -> unblocked st name w ->
  Forall (ev_op_ok st name s) ops -> grows ops * s_size s + 16 <= isize_max -> quiet st (others ops) w ->
  exists flags sl w', ev_session b e lim s st name schema ops w = (Ret (Ok (flags, Ok sl)), w') /\
    Forall (eq true) flags /\ slice_ok sl /\
    records s (sl_bytes sl) = elements s (all_sets ops) /\ av_len s sl = grows ops /\
    forall b' e', exists sl' w'', read b' e' st name schema (set_faults [] w') = (Ret (Ok sl'), w'') /\
      sl_bytes sl' = sl_bytes sl.
Proof.
  intros Hwf Sok MO F Un Ops HL Q. pose proof Hwf as (Hpos & _).
  destruct (ev_progress b e lim st name schema s ops w Hwf Sok MO F Un Ops HL Q)
    as (v & w1 & flags & v' & w2 & sl & w3 & C & R & Fl & Cl).
  destruct (ev_closed_ok b e lim st name schema s ops w v w1 flags v' w2 sl w3 Hwf Sok MO F Ops HL C R Cl (or_introl Fl))
    as (Lf & Sl & Sm & A & Rc & Ll & El & MO3 & B1 & B2 & F1 & F2).
  exists flags, sl, w3. split.
  { unfold ev_session, mtry, mbind. rewrite C. cbn beta iota. rewrite R. cbn beta iota. cbn [snd fst]. rewrite Cl. reflexivity. }
  split; auto. split; auto. rewrite (kept_all ops flags Lf Fl) in *. split; auto.
  split. { unfold av_len. rewrite Ll, Z.div_mul by lia. rewrite <- (kept_all ops flags Lf Fl). apply kept_grows; auto. }
  intros b' e'. apply found_reads; auto.
  split; [apply bytes_ok_firstn; apply Sl|]. rewrite len_sl_bytes by auto.
  rewrite Ll. rewrite <- (kept_all ops flags Lf Fl), (kept_grows ops flags Lf Fl). lia.
Qed.
Print Assumptions C31_session_exact.

Example C31_example :
  wf_struct ex_struct /\ schema_ok ex_fs [65] /\ maps_ok ex_w /\ fresh_name ex_fs "x" ex_w /\
  unblocked ex_fs "x" ex_w /\ Forall (ev_op_ok ex_fs "x" ex_struct) ex_ops /\ quiet ex_fs (others ex_ops) ex_w /\
  elements ex_struct (all_sets ex_ops) = ex_records /\ grows ex_ops = 4 /\
  (let (o, w') := ev_session Debug LE 12 ex_struct ex_fs "x" [65] ex_ops ex_w in
   match o with
   | Ret (Ok (flags, Ok sl)) => flags = repeat true 7 /\ records ex_struct (sl_bytes sl) = ex_records
   | _ => False
   end) /\
  (* some bytes are flushed during the session, the rest at its end *)
  match ev_session Debug LE 12 ex_struct ex_ms "x" [65] ex_ops ex_w with
  | (Ret (Ok (_, Ok sl)), w') => records ex_struct (sl_bytes sl) = ex_records
  | _ => False
  end.
Proof.
  split; [apply ex_struct_wf|]. split; [apply ex_short_schema|]. split; [apply ex_maps|]. split; [apply ex_fresh_file|].
  split; [apply ex_unblocked|].
  split; [apply ex_ops_ok|]. split; [apply ex_quiet|]. split; [reflexivity|]. split; [reflexivity|].
  split; vm_compute; repeat split.
Qed.

(** If all grows succeeded and close returned Ok, whatever else failed. *)
Theorem C31_all_succeed b e lim st name schema s ops w v w1 flags v' w2 sl w3 :
  wf_struct s -> schema_ok st schema -> maps_ok w -> fresh_name st name w ->
  Forall (ev_op_ok st name s) ops -> grows ops * s_size s + 16 <= isize_max ->
  create_external_vector b e st name schema w = (Ret (Ok v), w1) ->
  ev_run b e lim s ops v w1 = (Ret (flags, v'), w2) -> Forall (eq true) flags ->
  ev_close b e v' w2 = (Ret (Ok sl), w3) ->
  ev_len v' = grows ops /\ slice_ok sl /\ len (sl_mem sl) = sl_len sl + 8 /\
  records s (sl_bytes sl) = elements s (all_sets ops) /\
  bytes_at (cell_at st name) w3 = Some (resource_bytes (sl_bytes sl)) /\
  bytes_at (cell_at st (schema_name name)) w3 = Some schema.
Proof.
  intros Hwf Sok MO F Ops HL C R Fl Cl.
  destruct (ev_closed_ok b e lim st name schema s ops w v w1 flags v' w2 sl w3 Hwf Sok MO F Ops HL C R Cl (or_introl Fl))
    as (Lf & Sl & Sm & A & Rc & Ll & El & MO3 & B1 & B2 & F1 & F2).
  rewrite (kept_grows ops flags Lf Fl) in El. rewrite (kept_all ops flags Lf Fl) in *.
  split; auto.
Qed.
Print Assumptions C31_all_succeed.

Example C31_len_example :
  match (let? v := create_external_vector Debug LE ex_fs "x" [65] in
         let! r := ev_run Debug LE 12 ex_struct ex_ops v in mret (Ok (ev_len (snd r)))) ex_w with
  | (Ret (Ok n), _) => n = 4
  | _ => False
  end.
Proof. vm_compute. reflexivity. Qed.

(** C32: the same bytes as a Vector with the same records, however it was filled. *)
Theorem C32_same_as_vector b e lim st name schema s ops w v w1 flags v' w2 sl w3
    b2 e2 st2 name2 n vops data view wa wb :
  wf_struct s -> schema_ok st schema -> maps_ok w -> fresh_name st name w ->
  Forall (ev_op_ok st name s) ops -> grows ops * s_size s + 16 <= isize_max ->
  create_external_vector b e st name schema w = (Ret (Ok v), w1) ->
  ev_run b e lim s ops v w1 = (Ret (flags, v'), w2) -> Forall (eq true) flags ->
  ev_close b e v' w2 = (Ret (Ok sl), w3) ->
  0 <= n -> n * s_size s + 8 <= isize_max -> vec_ops_ok s vops n ->
  obind (vec_with_len b2 s n) (vec_run b2 e2 s vops) = Ret data -> vec_as_view b2 data = Ret view ->
  fold_left (fun l o => list_step s o l) vops (repeat (zero_record s) (Z.to_nat n)) = elements s (all_sets ops) ->
  fresh_name st2 name2 wa ->
  write b2 e2 st2 name2 schema (sl_bytes (av_as_bytes view)) wa = (Ret (Ok tt), wb) ->
  bytes_at (cell_at st2 name2) wb = bytes_at (cell_at st name) w3 /\
  bytes_at (cell_at st2 (schema_name name2)) wb = bytes_at (cell_at st (schema_name name)) w3.
Proof.
  intros Hwf Sok MO F Ops HL C R Fl Cl Hn Hm Vok Rv Vv El F2 Wr.
  destruct (ev_closed_ok b e lim st name schema s ops w v w1 flags v' w2 sl w3 Hwf Sok MO F Ops HL C R Cl (or_introl Fl))
    as (Lf & Sl & Sm & A & Rc & Ll & _ & MO3 & B1 & B2 & _ & _).
  rewrite (kept_all ops flags Lf Fl), <- El in A.
  change (sl_bytes (av_as_bytes view)) with (sl_bytes view) in Wr.
  rewrite (same_as_vector b2 e2 s n vops data view (sl_bytes sl) Hwf Hn Hm Vok Rv Vv A) in Wr.
  destruct (C49_write_format b2 e2 st2 name2 schema (sl_bytes sl) wa wb F2 Wr) as (X1 & X2).
  rewrite X1, B1, B2. auto.
Qed.
Print Assumptions C32_same_as_vector.

Example C32_example :
  let vops := [VGrow [(1%nat, 1)]; VGrow [(2%nat, 1)]; VReserve 5; VSet 0 [(0%nat, 513); (1%nat, -3)]; VGrow []; VGrow [(0%nat, 1); (1%nat, 15)]] in
  vec_ops_ok ex_struct vops 0 /\
  fold_left (fun l o => list_step ex_struct o l) vops [] = elements ex_struct (all_sets ex_ops) /\
  match obind (obind (vec_with_len Debug ex_struct 0) (vec_run Debug BE ex_struct vops)) (vec_as_view Debug) with
  | Ret view => w_files (snd (ev_session Debug LE 12 ex_struct ex_fs "x" [65] ex_ops ex_w)) (key_of "/d/x")
     = Some (resource_bytes (sl_bytes view))
  | _ => False
  end.
Proof.
  cbn zeta. split. { cbn. unfold isize_max, sets_ok. repeat split; try lia; repeat constructor; cbn; lia. }
  split; [reflexivity|]. vm_compute. reflexivity.
Qed.

(** C33: whatever I/O failed, and however often grow was retried. *)
Theorem C33_failures_sound b e lim st name schema s ops w v w1 flags v' w2 sl w3 :
  wf_struct s -> schema_ok st schema -> maps_ok w -> fresh_name st name w ->
  Forall (ev_op_ok st name s) ops -> grows ops * s_size s + 16 <= isize_max ->
  create_external_vector b e st name schema w = (Ret (Ok v), w1) ->
  ev_run b e lim s ops v w1 = (Ret (flags, v'), w2) ->
  ev_close b e v' w2 = (Ret (Ok sl), w3) ->
  (* file sizes are at most isize::MAX *)
  (forall c, bytes_at (cell_at st name) w3 = Some c -> len c <= isize_max) ->
  slice_ok sl /\ records s (sl_bytes sl) = elements s (kept ops flags) /\
  ev_len v' = Z.of_nat (length (kept ops flags)) /\
  bytes_at (cell_at st name) w3 = Some (resource_bytes (sl_bytes sl)) /\
  forall b' e', exists sl' w'', read b' e' st name schema (set_faults [] w3) = (Ret (Ok sl'), w'') /\
    sl_bytes sl' = sl_bytes sl.
Proof.
  intros Hwf Sok MO F Ops HL C R Cl Hd. pose proof Hwf as (Hpos & _).
  destruct (ev_closed_ok b e lim st name schema s ops w v w1 flags v' w2 sl w3 Hwf Sok MO F Ops HL C R Cl (or_intror Hd))
    as (Lf & Sl & Sm & A & Rc & Ll & El & MO3 & B1 & B2 & F1 & F2).
  split; auto. split; auto. split; auto. split; auto.
  intros b' e'. apply found_reads; auto.
  split; [apply bytes_ok_firstn; apply Sl|]. rewrite len_sl_bytes by auto.
  rewrite Ll. pose proof (kept_le ops flags). nia.
Qed.
Print Assumptions C33_failures_sound.

(** A flush writes 2 bytes and fails; the grow is retried and succeeds, but
    close reports that the resource has the wrong size.  A flush that fails
    without writing anything leaves a vector that closes normally. *)
Definition ex_grows := [EGrow [(0%nat, 7)]; EGrow [(0%nat, 8)]; EGrow [(0%nat, 9)]; EGrow [(0%nat, 9)]].
Definition ex_go (st : storage) (f g : list fault) : list bool * outcome (result (list (list Z)) rs_error) :=
  match create_external_vector Debug LE st "x" [65] ex_w with
  | (Ret (Ok v), w1) =>
      match ev_run Debug LE 12 ex_struct ex_grows v (set_faults f w1) with
      | (Ret (flags, v'), w2) =>
          (flags, omap (fun r => match r with Ok sl => Ok (records ex_struct (sl_bytes sl)) | Er x => Er x end)
                    (fst (ev_close Debug LE v' (set_faults g w2))))
      | _ => ([], UB)
      end
  | _ => ([], UB)
  end.
Example C33_example :
  ex_go ex_fs [FShort 2 KOther] [] = ([true; true; false; true], Ret (Er EUnexpectedDataSize)) /\
  ex_go ex_fs [FErr KOther] [] = ([true; true; false; true], Ret (Ok [[7; 0; 0]; [8; 0; 0]; [9; 0; 0]])) /\
  ex_go ex_fs [] [] = ([true; true; true; true], Ret (Ok [[7; 0; 0]; [8; 0; 0]; [9; 0; 0]; [9; 0; 0]])).
Proof. vm_compute. repeat split. Qed.

(** C34: without I/O failures close returns, with at most the error that the
    resource does not read back ... *)
Theorem C34_close_partial b e lim st name schema s ops w v w1 flags v' w2 o w3 :
  wf_struct s -> schema_ok st schema -> maps_ok w -> fresh_name st name w ->
  Forall (ev_op_ok st name s) ops -> grows ops * s_size s + 16 <= isize_max ->
  create_external_vector b e st name schema w = (Ret (Ok v), w1) ->
  ev_run b e lim s ops v w1 = (Ret (flags, v'), w2) ->
  ev_close b e v' w2 = (o, w3) ->
  (forall c, bytes_at (cell_at st name) w3 = Some c -> len c <= isize_max) ->
  is_file st = false \/ w_faults w2 = [] -> exists r, o = Ret r.
Proof.
  intros Hwf Sok MO F Ops HL C R Cl Hd Q.
  destruct (ev_close_outcome b e lim st name schema s ops w v w1 flags v' w2 o w3 Hwf Sok MO F Ops HL C R Cl Hd)
    as [X|(Hf & Ff & _)]; auto. destruct Q; congruence.
Qed.
Print Assumptions C34_close_partial.

(** ... but whenever the flush or the finalisation in close fails, it panics. *)
Theorem C34_close_refuted b e lim st name schema s ops w v w1 flags v' w2 :
  wf_struct s -> maps_ok w -> fresh_name st name w ->
  Forall (ev_op_ok st name s) ops -> grows ops * s_size s + 16 <= isize_max ->
  create_external_vector b e st name schema w = (Ret (Ok v), w1) ->
  ev_run b e lim s ops v w1 = (Ret (flags, v'), w2) ->
  (forall k v2 w3, ev_flush b v' w2 = (Ret (Er k, v2), w3) -> ev_close b e v' w2 = (Panic, w3)) /\
  (forall v2 w3 x h w4, ev_flush b v' w2 = (Ret (Ok tt, v2), w3) ->
     handle_close b e (ev_handle v2) w3 = (Ret (Er x, h), w4) -> is_open h = true ->
     ev_close b e v' w2 = (Panic, w4)).
Proof.
  intros Hwf MO F Ops HL C R.
  destruct (ev_run_open b e lim st name schema s ops w v w1 _ w2 Hwf MO F Ops HL C R) as (_ & [(fl & v0 & E & Op)|(E & _)]);
    [|discriminate]. injection E as <- <-.
  split.
  - intros k v2 w3 Fl. assert (Op2 := flush_open _ _ _ _ _ _ Op Fl).
    unfold ev_close, mbind. rewrite Fl. cbn beta iota. unfold handle_drop. rewrite Op2. reflexivity.
  - intros v2 w3 x h w4 Fl Hc Oh. unfold ev_close, mbind. rewrite Fl. cbn beta iota. rewrite Hc. cbn [snd fst].
    unfold handle_drop. rewrite Oh. reflexivity.
Qed.
Print Assumptions C34_close_refuted.

(** The write of the buffered bytes, of the padding, and of the size fail. *)
Example C34_example :
  ex_go ex_fs [] [FErr KOther] = ([true; true; true; true], Panic) /\
  ex_go ex_fs [] [FOk; FErr KOther] = ([true; true; true; true], Panic) /\
  ex_go ex_fs [] [FOk; FOk; FOk; FShort 3 KOther] = ([true; true; true; true], Panic).
Proof. vm_compute. repeat split. Qed.

(** C36: a crash in create leaves nothing readable if there was nothing before
    (see C58), ... *)
Theorem C36_create_partial b e id base name schema w o w1 : let st := FileStorage id base in
  fresh_name st name w -> w_files w (res_key st name) = None -> disk_ok w ->
  create_external_vector b e st name schema w = (o, w1) -> (forall v, o <> Ret (Ok v)) ->
  forall b' e' expected sl, fresh_read b' e' base name expected w1 <> Ret (Ok sl).
Proof.
  intros st F N Do C No b' e' expected sl R.
  destruct (create_ev_cases b e st name schema (index_struct 1 8) w o w1 F C) as (_ & [(v & E & _)|(_ & _ & _ & P)]).
  - apply (No v E).
  - destruct (create_progress_read _ _ _ _ _ _ _ _ _ _ P Do R) as (pad & E & _). change (res_key (FileStorage id base)) with (res_key st) in E. congruence.
Qed.
Print Assumptions C36_create_partial.

(** ... a crash while elements are added, or later, leaves at most an empty
    resource, ... *)
Theorem C36_run_partial b e lim id base name schema s ops w v w1 o w2 : let st := FileStorage id base in
  wf_struct s -> maps_ok w -> fresh_name st name w ->
  Forall (ev_op_ok st name s) ops -> grows ops * s_size s + 16 <= isize_max ->
  create_external_vector b e st name schema w = (Ret (Ok v), w1) ->
  ev_run b e lim s ops v w1 = (o, w2) ->
  (forall c, w_files w2 (res_key st name) = Some c -> len c <= isize_max) ->
  forall b' e' expected sl, fresh_read b' e' base name expected w2 = Ret (Ok sl) ->
  expected = schema /\ sl_bytes sl = [].
Proof.
  intros st Hwf MO F Ops HL C R Hd b' e' expected sl Rd.
  destruct (ev_run_open b e lim st name schema s ops w v w1 o w2 Hwf MO F Ops HL C R) as (U & _).
  destruct (unsealed_read b' e' id base name schema w2 expected sl U Hd Rd) as (A & B & _). auto.
Qed.
Print Assumptions C36_run_partial.

(** ... and a crash in close leaves an empty or the complete resource. *)
Theorem C36_close_partial b e lim id base name schema s ops w v w1 flags v' w2 w3 : let st := FileStorage id base in
  wf_struct s -> schema_ok st schema -> maps_ok w -> fresh_name st name w ->
  Forall (ev_op_ok st name s) ops -> grows ops * s_size s + 16 <= isize_max ->
  create_external_vector b e st name schema w = (Ret (Ok v), w1) ->
  ev_run b e lim s ops v w1 = (Ret (flags, v'), w2) ->
  ev_close b e v' w2 = (Crash, w3) ->
  (forall c, w_files w3 (res_key st name) = Some c -> len c <= isize_max) ->
  forall b' e' expected sl, fresh_read b' e' base name expected w3 = Ret (Ok sl) ->
  expected = schema /\ (records s (sl_bytes sl) = elements s (kept ops flags) \/ sl_bytes sl = []).
Proof.
  intros st Hwf Sok MO F Ops HL C R Cl Hd b' e' expected sl Rd.
  destruct (ev_crash_close b e lim id base name schema s ops w v w1 flags v' w2 w3 Hwf Sok MO F Ops HL C R Cl Hd
    b' e' expected sl Rd) as (A & [(_ & B)|(B & _)]); auto.
Qed.
Print Assumptions C36_close_partial.

(** A vector with one element of 8 bytes: the process dies in close before the
    padding is written, and the element takes its place. *)
Definition ex_crash (st : storage) (s : sdesc) (ops : list ev_op) (g : list fault) :=
  match create_external_vector Debug LE st "x" [65] ex_w with
  | (Ret (Ok v), w1) =>
      match ev_run Debug LE 12 s ops v w1 with
      | (Ret (flags, v'), w2) => ev_close Debug LE v' (set_faults g w2)
      | (_, w2) => (UB, w2)
      end
  | (_, w1) => (UB, w1)
  end.
Theorem C36_crash_refuted : exists s ops g w3,
  wf_struct s /\ Forall (ev_op_ok ex_fs "x" s) ops /\ grows ops = 1 /\
  ex_crash ex_fs s ops g = (Crash, w3) /\
  exists sl, fresh_read Debug LE "/d" "x" [65] w3 = Ret (Ok sl) /\ sl_bytes sl = [].
Proof.
  exists (mkStruct 8 [mkField U64 0 64]), [EGrow [(0%nat, 77)]], [FOk; FCrash 0].
  eexists. split; [apply wf_struct_dec; reflexivity|].
  split. { constructor; [|constructor]. cbn [ev_op_ok]. unfold sets_ok. constructor; [|constructor]. cbn. split; lia. }
  split; [reflexivity|]. split; [vm_compute; reflexivity|].
  eexists. split; vm_compute; reflexivity.
Qed.
Print Assumptions C36_crash_refuted.

Example C36_example :
  (* dies in the middle of the size: complete; in the padding: not readable *)
  omap seen (fresh_read Debug LE "/d" "x" [65] (snd (ex_crash ex_fs ex_struct ex_grows [FOk; FOk; FOk; FCrash 1]))) =
    Ret (Ok [7; 0; 0; 8; 0; 0; 9; 0; 0; 9; 0; 0]) /\
  omap seen (fresh_read Debug LE "/d" "x" [65] (snd (ex_crash ex_fs ex_struct ex_grows [FOk; FCrash 4]))) =
    Ret (Er EUnexpectedDataSize) /\
  fst (ex_crash ex_fs ex_struct ex_grows [FOk; FOk; FOk; FCrash 1]) = Crash /\
  fst (ex_crash ex_fs ex_struct ex_grows [FOk; FCrash 4]) = Crash.
Proof. vm_compute. repeat split. Qed.

(** C47 for external vectors: an unclosed one panics when it is dropped, unless
    the thread is panicking; after close has returned, its handle is closed. *)
Theorem C47_external_vector b e lim st name schema s ops w v w1 flags v' w2 :
  wf_struct s -> maps_ok w -> fresh_name st name w ->
  Forall (ev_op_ok st name s) ops -> grows ops * s_size s + 16 <= isize_max ->
  create_external_vector b e st name schema w = (Ret (Ok v), w1) ->
  ev_run b e lim s ops v w1 = (Ret (flags, v'), w2) ->
  (forall w', handle_drop false (ev_handle v') w' = (Panic, w')) /\
  (forall w', handle_drop true (ev_handle v') w' = (Ret tt, w')) /\
  (forall v2 w3 r h w4, ev_flush b v' w2 = (Ret (Ok tt, v2), w3) -> handle_close b e (ev_handle v2) w3 = (Ret (Ok r, h), w4) ->
     ev_close b e v' w2 = (Ret (Ok r), w4)).
Proof.
  intros Hwf MO F Ops HL C R.
  destruct (ev_run_open b e lim st name schema s ops w v w1 _ w2 Hwf MO F Ops HL C R) as (_ & [(fl & v0 & E & Op)|(E & _)]);
    [|discriminate]. injection E as <- <-.
  split; [intros w'; unfold handle_drop; rewrite Op; reflexivity|].
  split; [reflexivity|].
  intros v2 w3 r h w4 Fl Hc. assert (Cl := handle_close_closed _ _ _ _ _ _ _ Hc).
  unfold ev_close, mbind. rewrite Fl. cbn beta iota. rewrite Hc. cbn [fst snd]. unfold handle_drop. rewrite Cl. reflexivity.
Qed.
Print Assumptions C47_external_vector.

Example C47_example :
  match create_external_vector Debug LE ex_fs "x" [65] ex_w with
  | (Ret (Ok v), w1) =>
      fst (handle_drop false (ev_handle v) w1) = Panic /\
      match ev_run Debug LE 12 ex_struct ex_ops v w1 with
      | (Ret (_, v'), w2) => fst (handle_drop false (ev_handle v') w2) = Panic /\
          (exists sl, fst (ev_close Debug LE v' w2) = Ret (Ok sl))
      | _ => False
      end
  | _ => False
  end.
Proof. vm_compute. split; [reflexivity|]. split; [reflexivity|]. eexists. reflexivity. Qed.

(** C49 for external vectors: header, data, eight zero bytes. *)
Theorem C49_external_vector b e lim st name schema s ops w v w1 flags v' w2 sl w3 :
  wf_struct s -> schema_ok st schema -> maps_ok w -> fresh_name st name w ->
  Forall (ev_op_ok st name s) ops -> grows ops * s_size s + 16 <= isize_max ->
  create_external_vector b e st name schema w = (Ret (Ok v), w1) ->
  ev_run b e lim s ops v w1 = (Ret (flags, v'), w2) ->
  ev_close b e v' w2 = (Ret (Ok sl), w3) ->
  (forall c, bytes_at (cell_at st name) w3 = Some c -> len c <= isize_max) ->
  bytes_at (cell_at st name) w3 = Some (le_bytes 8 (ev_len v' * s_size s) ++ sl_bytes sl ++ zeros 8) /\
  len (sl_bytes sl) = ev_len v' * s_size s /\
  bytes_at (cell_at st (name ++ ".schema")) w3 = Some schema.
Proof.
  intros Hwf Sok MO F Ops HL C R Cl Hd.
  destruct (ev_closed_ok b e lim st name schema s ops w v w1 flags v' w2 sl w3 Hwf Sok MO F Ops HL C R Cl (or_intror Hd))
    as (Lf & Sl & Sm & A & Rc & Ll & El & MO3 & B1 & B2 & F1 & F2).
  rewrite El, <- Ll. rewrite <- (len_sl_bytes sl Sl). auto.
Qed.
Print Assumptions C49_external_vector.

Example C49_ev_example :
  w_files (snd (ev_session Debug BE 12 ex_struct ex_fs "x" [65] ex_grows ex_w)) (key_of "/d/x") =
  Some [12; 0; 0; 0; 0; 0; 0; 0; 7; 0; 0; 8; 0; 0; 9; 0; 0; 9; 0; 0; 0; 0; 0; 0; 0; 0; 0; 0].
Proof. vm_compute. reflexivity. Qed.

(** C26 for external vectors: creating, filling and closing one leaves other
    resources alone, whatever fails, if the steps in between do. *)
Theorem C26_external_vector b e lim s st st' n m schema ops w o w' :
  valid_name n -> valid_name m -> (st = st' /\ unrelated m n \/ apart st' st) ->
  wf_struct s -> schema_ok st schema -> maps_ok w -> fresh_name st n w ->
  Forall (ev_op_ok st n s) ops -> grows ops * s_size s + 16 <= isize_max ->
  (forall f, In f (others ops) -> forall w, maps_ok w -> touches (fun c => ~ cells_of st' m c) w (f w)) ->
  ev_session b e lim s st n schema ops w = (o, w') -> undisturbed st' m w w'.
Proof.
  intros Hn Hm D Hwf Sok MO F Ops HL HO R.
  assert (D' : st' = st /\ unrelated m n \/ apart st' st) by (destruct D as [(<- & U)|A]; auto).
  destruct (other_cells st' st m n Hm Hn D') as (N1 & N2).
  eapply touches_undisturbed; [eapply ev_session_touches; try eassumption| |].
  - intros c Hc [->| ->]; auto.
  - intros H. apply H. left. auto.
  - intros H. apply H. right. auto.
Qed.
Print Assumptions C26_external_vector.

Example C26_ev_example :
  let w := snd (write Debug LE ex_fs "edges" [65] [1] ex_w) in
  valid_name "x" /\ valid_name "edges" /\ unrelated "edges" "x" /\ fresh_name ex_fs "x" w /\
  omap seen (fst (read Debug LE ex_fs "edges" [65] (snd (ev_session Debug LE 12 ex_struct ex_fs "x" [65] ex_ops w)))) = Ret (Ok [1]).
Proof.
  cbn zeta. split; [repeat split; discriminate|]. split; [repeat split; discriminate|].
  split; [repeat split; discriminate|]. split; [split; vm_compute; reflexivity|]. vm_compute. reflexivity.
Qed.

(** C57: reading an external vector that is still being written through the
    same storage freezes what the storage finds: in both storages the finished
    resource cannot be read and close fails. *)
Definition ex_peek (st : storage) :=
  [EGrow [(0%nat, 7)]; EOther (fun w => snd (read Debug LE st "x" [65] w)); EGrow [(0%nat, 8)]].
Theorem C57_peek_refuted : forall st, st = ex_ms \/ st = ex_fs ->
  exists w', ev_session Debug LE 12 ex_struct st "x" [65] (ex_peek st) ex_w =
    (Ret (Ok ([true; true; true], Er EUnexpectedDataSize)), w').
Proof. intros st [-> | ->]; eexists; vm_compute; reflexivity. Qed.
Print Assumptions C57_peek_refuted.

(** Reading through another file storage object, or other resources, is harmless:
    such steps are allowed in C31-C33. *)
Theorem C57_peek_partial b e id base id' base' st st' n m expected :
  (id <> id' -> elsewhere (FileStorage id base) [n; schema_name n]
                  (fun w => snd (read b e (FileStorage id' base') m expected w))) /\
  (valid_name n -> valid_name m -> (st = st' /\ unrelated n m \/ apart st st') ->
     elsewhere st [n; schema_name n] (fun w => snd (read b e st' m expected w))).
Proof.
  split.
  - apply own_reader_elsewhere.
  - apply read_elsewhere.
Qed.
Print Assumptions C57_peek_partial.

(** C58: recreating a resource with another schema.  If the process dies after
    the new schema is written, the old data can be read with the new schema;
    what can be read is always the complete old data. *)
Theorem C58_recreate_partial b e id base name schema w o w1 : let st := FileStorage id base in
  fresh_name st name w -> disk_ok w ->
  create_external_vector b e st name schema w = (o, w1) -> (forall v, o <> Ret (Ok v)) ->
  forall b' e' expected sl, fresh_read b' e' base name expected w1 = Ret (Ok sl) ->
  exists pad, w_files w (res_key st name) = Some (framed (sl_bytes sl) pad) /\ len pad = 8.
Proof.
  intros st F Do C No b' e' expected sl R.
  destruct (create_ev_cases b e st name schema (index_struct 1 8) w o w1 F C) as (_ & [(v & E & _)|(_ & _ & _ & P)]).
  - destruct (No v E).
  - exact (create_progress_read _ _ _ _ _ _ _ _ _ _ P Do R).
Qed.
Print Assumptions C58_recreate_partial.

Theorem C58_recreate_refuted : exists g,
  let w := snd (write Debug LE ex_fs "x" [65] [1; 2; 3] ex_w) in
  let r := create_external_vector Debug LE ex_fs "x" [66] (set_faults g w) in
  fst r = Crash /\
  omap seen (fresh_read Debug LE "/d" "x" [66] (snd r)) = Ret (Ok [1; 2; 3]) /\
  omap seen (fresh_read Debug LE "/d" "x" [65] (snd r)) = Ret (Er (EWrongSignature "x")).
Proof.
  exists (repeat FOk 4 ++ [FCrash 0]). cbn zeta. split; [vm_compute; reflexivity|]. split; vm_compute; reflexivity.
Qed.
Print Assumptions C58_recreate_refuted.

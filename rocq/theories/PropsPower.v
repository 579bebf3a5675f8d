(** Property C77: what is left after a power failure.
    Vocabulary (PowerSpec.v): [after_power_failure] (every file has kept its own
    beginning of what was written to it), [all_or_nothing], [left_plan] (what an
    archive shows afterwards), [with_holes]; [fresh_read], [fresh_open] (a new
    process) in StorageSpec.v and ArchiveSpec.v. *)
From Verif Require Import Base BaseFacts Codec CodecSpec Structs StructsSpec Views ViewsSpec.
From Verif Require Import Storage PathFacts StorageSpec PropsStorage Writers WritersSpec PropsExtVec MultiViews MultiSpec PropsMultiViews PropsMultiVec.
From Verif Require Import Archives ArchiveSpec PropsArchive BuilderSpec PropsBuilder PropsProgress.
From Verif Require Import MomentSpec PropsMoments DuringSpec PropsDuring PowerSpec PowerFacts.
Local Open Scope list_scope.
Local Open Scope Z_scope.

(** ** A resource written in one go: an error, or all of it. *)
Theorem C77_write b e id base name schema data w left : let st := FileStorage id base in
  w_faults w = [] -> fresh_name st name w -> unblocked st name w -> absent st name w -> data_ok data ->
  after_power_failure (write b e st name schema data) w left ->
  forall b' e' expected, exists r, fresh_read b' e' base name expected left = Ret r /\
    forall sl, r = Ok sl -> slice_ok sl /\ sl_bytes sl = data /\ exists q, schema = expected ++ q.
Proof. apply power_write. Qed.
Print Assumptions C77_write.

(** ** An external vector: an error, all of it, or nothing. *)
Theorem C77_external_vector_partial b e lim s id base name schema ops w : let st := FileStorage id base in
  w_faults w = [] -> wf_struct s -> schema_ok st schema -> maps_ok w -> fresh_name st name w -> unblocked st name w -> absent st name w ->
  only_grows ops -> Forall (ev_op_ok st name s) ops -> grows ops * s_size s + 16 <= isize_max ->
  exists D, array_of s D (elements s (all_sets ops)) /\ records s D = elements s (all_sets ops) /\
  forall left, after_power_failure (ev_session b e lim s st name schema ops) w left ->
  forall b' e' expected, exists r, fresh_read b' e' base name expected left = Ret r /\
    forall sl, r = Ok sl -> (exists q, schema = expected ++ q) /\ all_or_nothing D sl.
Proof. apply power_ev. Qed.
Print Assumptions C77_external_vector_partial.

(** ** A multivector: the same for the index and for the data. *)
Theorem C77_multi_vector_partial b e lim size bits ts id base name schema ops w : let st := FileStorage id base in
  w_faults w = [] -> wf_struct (index_struct size bits) -> wf_vdesc ts -> valid_name name -> mv_schema_ok st schema -> maps_ok w ->
  mv_fresh st name w -> mv_unblocked st name w -> absent st name w -> absent st (index_name name) w ->
  only_mgrows ops -> Forall (mv_op_ok st name ts) ops -> mv_fits size bits ts ops ->
  exists I D, (forall i d, slice_ok i -> slice_ok d -> sl_bytes i = I -> sl_bytes d = D ->
                 mav_shows ts size bits (mkMav i d) (buckets ts (mv_all ops))) /\
  forall left, after_power_failure (mv_session b e lim size bits ts st name schema ops) w left ->
  forall b' e' expected,
    (exists r, fresh_read b' e' base (index_name name) expected left = Ret r /\
       forall sl, r = Ok sl -> (exists q, index_schema schema = expected ++ q) /\ all_or_nothing I sl) /\
    (exists r, fresh_read b' e' base name expected left = Ret r /\
       forall sl, r = Ok sl -> (exists q, schema = expected ++ q) /\ all_or_nothing D sl).
Proof. apply power_mv. Qed.
Print Assumptions C77_multi_vector_partial.

(** ** An archive: opening returns, and each part is all or nothing. *)
Theorem C77_archive_partial b e lim a id base ops A w left : let st := FileStorage id base in
  wf_archive true a -> dirs_apart a -> maps_ok w -> unused_storage st w -> empty_place st w ->
  history true a no_plan ops A -> finished A ->
  after_power_failure (build_session b e lim a st ops) w left ->
  forall b' e', exists r, fresh_open b' e' a base left = Ret r /\
    forall x, r = Ok x -> left_plan a base A x /\ complete a x /\ sufficient a A.
Proof. apply power_build. Qed.
Print Assumptions C77_archive_partial.

(** Disks that are left. *)
Definition left_at {A} (m : M A) (w : world) (f : key -> moment) : world :=
  set_files (fun k => w_files (world_at m w (f k)) k) (world_at m w (At 1000 0)).
Lemma left_at_ok {A} (m : M A) w f : after_power_failure m w (left_at m w f).
Proof. intros k. exists (f k). reflexivity. Qed.
Definition except (name : string) (x y : moment) : key -> moment := kupd (res_key ex_fs name) x (fun _ => y).

Example C77_example :
  let go {A} (m : M A) name s f := omap seen (fresh_read Release BE "/d" name s (left_at m ex_w f)) in
  go w_run "x"%string ex_schema (except "x" (At 5 5) (At 9 0)) = Ret (Er EUnexpectedDataSize) /\
  go w_run "x"%string ex_schema (except "x" (At 6 0) (At 0 0)) = Ret (Er (EIo KNotFound "x")) /\
  go w_run "x"%string ex_schema (except "x" (At 6 0) (At 9 0)) = Ret (Ok [1; 2; 3]) /\
  go g_run "x"%string [65] (except "x" (At 11 0) (At 20 0)) = Ret (Er EUnexpectedDataSize) /\
  go g_run "x"%string [65] (except "x" (At 20 0) (At 5 1)) = Ret (Ok [1; 210; 1; 0; 0; 128; 0; 0; 0; 1; 240; 0]) /\
  glances (fresh_open Debug LE ex_Arch "/d" (left_at (d_run Debug LE) ex_w (except "v" (At 68 0) (At 100 0)))) = Ret (Er EUnexpectedDataSize) /\
  glances (fresh_open Debug LE ex_Arch "/d" (left_at (d_run Debug LE) ex_w (except "b" (At 3 0) (At 100 0)))) =
    Ret (Ok ([Some [1; 2; 3; 4]; None], [Some [1; 0; 2; 0; 3; 0; 4; 0]; None],
             [Some ([0; 0; 0; 0; 5; 0; 0; 0; 5; 0; 0; 0], [1; 5; 0; 6; 0]); None], [Some [9]; None], [Some [Some [8; 8]]; None])).
Proof. vm_compute. repeat split. Qed.

(** ** Three things that do not hold *)

(** Durability: after everything was written and closed, a required vector may
    be there, but empty. *)
Definition p_empty b e := left_at (d_run b e) ex_w (except "v" (At 69 0) (At 100 0)).
Theorem C77_durable_refuted : forall b e,
  after_power_failure (d_run b e) ex_w (p_empty b e) /\
  glances (fresh_open b e ex_Arch "/d" (p_empty b e)) =
    Ret (Ok ([Some [1; 2; 3; 4]; Some [5; 6; 7; 8]], [Some []; None],
             [Some ([0; 0; 0; 0; 5; 0; 0; 0; 5; 0; 0; 0], [1; 5; 0; 6; 0]); None], [Some [9]; None], [Some [Some [8; 8]]; None])).
Proof. intros b e. split; [apply left_at_ok|]. destruct b, e; vm_compute; reflexivity. Qed.
Print Assumptions C77_durable_refuted.

(** The index is written last (C70), but it may reach the disk first: three
    buckets and 13 bytes of data were written, the index is there, and the data
    are taken for empty. *)
Definition p_order := left_at m_run ex_w (except "x" (At 17 4) (At 30 0)).
Theorem C77_order_refuted :
  after_power_failure m_run ex_w p_order /\
  match fresh_read Debug LE "/d" (index_name "x") (index_schema [65]) p_order, fresh_read Debug LE "/d" "x" [65] p_order with
  | Ret (Ok i), Ret (Ok d) =>
      mav_len Debug 4 32 (mkMav i d) = Ret 3 /\ sl_len d = 0 /\ mav_at Debug LE 4 32 (mkMav i d) 0 = Panic /\ mav_at Release LE 4 32 (mkMav i d) 0 = Panic
  | _, _ => False
  end.
Proof. split; [apply left_at_ok|]. vm_compute. repeat split. Qed.
Print Assumptions C77_order_refuted.

(** Integrity: if the file system kept the length of a file, but not all of its
    bytes, the resource is read without an error: nothing but the size is
    checked. *)
Definition p_final := world_at w_run ex_w (At 1000 0).
Theorem C77_holes_refuted : exists c c' left,
  w_files p_final (res_key ex_fs "x") = Some c /\ with_holes c c' /\
  left = set_files (kupd (res_key ex_fs "x") (Some c') (w_files p_final)) p_final /\
  (forall b e, omap seen (fresh_read b e "/d" "x" ex_schema p_final) = Ret (Ok [1; 2; 3])) /\
  (forall b e, omap seen (fresh_read b e "/d" "x" ex_schema left) = Ret (Ok [1; 0; 3])).
Proof.
  exists ([3; 0; 0; 0; 0; 0; 0; 0] ++ [1; 2; 3] ++ zeros 8), ([3; 0; 0; 0; 0; 0; 0; 0] ++ [1; 0; 3] ++ zeros 8). eexists.
  split; [vm_compute; reflexivity|]. split; [repeat (constructor; [auto|]); constructor|]. split; [reflexivity|].
  split; intros [|] [|]; vm_compute; reflexivity.
Qed.
Print Assumptions C77_holes_refuted.

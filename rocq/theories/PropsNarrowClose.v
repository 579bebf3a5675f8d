(** Property C98: on a target whose usize has [W] bits, a close that reports success
    tells the truth.  Sizes and lengths may wrap in a release build while data is
    written, so that writers that are never closed leave wrong headers (C91, C93);
    but close reads the resource back (storage.rs:321-346), and this fails then.
    Vocabulary: WidthRuns.v ([handle_run_w], [ev_run_w], [mv_run_w]: the calls made
    before close), WidthBuilders.v (close), HandleSpec.v ([sent]: what the successful
    calls of write wrote), WidthBuildSpec.v ([writers_fit]: what is written with
    writers fits; [elements_fit]: single elements do), and that of PropsBuilder.v, PropsExtVec.v and PropsMultiVec.v ([kept],
    [mv_kept]: what the successful calls of grow added). *)
From Verif Require Import Base BaseFacts Codec CodecSpec CodecFacts Structs StructsSpec StructsFacts Views ViewsSpec ViewsFacts.
From Verif Require Import Storage PathFacts StorageSpec StorageFacts StorageMore StorageUse PropsStorage Writers WritersSpec.
From Verif Require Import HandleSpec ExtVecFacts ExtVecUse PropsExtVec MultiViews MultiSpec MultiVecUse PropsMultiViews PropsMultiVec.
From Verif Require Import Archives ArchiveSpec PropsArchive BuilderSpec BuilderUse PropsBuilder.
From Verif Require Import Width WidthVectors WidthBuilders WidthBuildSpec PropsNarrowBuild WidthRuns WidthRunFacts WidthRunUse WidthRunBuild.
Local Open Scope list_scope.
Local Open Scope Z_scope.

(** If close of an external vector succeeds, with whatever failures before, then the
    data fits into the address space, all calls did what they do with 64 bits,
    and if they succeeded the file is what it has to be. *)
Theorem C98_vector W b e lim st name schema s ops w v w1 flags v' w2 sl w3 : 8 <= W <= 64 ->
  wf_struct s -> s_size s <= isize_max_w W -> schema_ok st schema -> maps_ok w -> fresh_name st name w ->
  Forall (ev_op_ok st name s) ops -> grows ops * s_size s + 16 <= isize_max ->
  create_external_vector b e st name schema w = (Ret (Ok v), w1) ->
  ev_run_w W b e lim s ops v w1 = (Ret (flags, v'), w2) ->
  ev_close_w W b e v' w2 = (Ret (Ok sl), w3) ->
  Z.of_nat (length (kept ops flags)) * s_size s + 16 < 2 ^ W /\
  ev_run b e lim s ops v w1 = (Ret (flags, v'), w2) /\ ev_close b e v' w2 = (Ret (Ok sl), w3) /\
  (Forall (eq true) flags ->
   array_of s (sl_bytes sl) (elements s (kept ops flags)) /\ ev_len v' = Z.of_nat (length (kept ops flags)) /\
   bytes_at (cell_at st name) w3 = Some (resource_bytes (sl_bytes sl)) /\
   bytes_at (cell_at st (schema_name name)) w3 = Some schema).
Proof.
  intros HW Wf Hs Sok MO F Ops HL C R Cl.
  destruct (vector_close_ok W HW b e lim st name schema s ops w v w1 flags v' w2 sl w3 Wf Hs Sok MO F Ops HL C R Cl) as (B & R' & Cl').
  split; [exact B|]. split; [exact R'|]. split; [exact Cl'|]. intros Ht.
  destruct (ev_closed_ok b e lim st name schema s ops w v w1 flags v' w2 sl w3 Wf Sok MO F Ops HL C R' Cl' (or_introl Ht))
    as (_ & _ & _ & Q1 & _ & _ & Q2 & _ & Q3 & Q4 & _). auto.
Qed.
Print Assumptions C98_vector.

(** The same for multivectors; the data and the index fit. *)
Theorem C98_multi W b e lim size bits ts st name schema ops w v w1 flags v' w2 iv d w3 : 8 <= W <= 64 ->
  wf_struct (index_struct size bits) -> wf_vdesc ts -> valid_name name -> size <= isize_max_w W ->
  Forall (fun x => s_size (snd x) < isize_max_w W) ts -> mv_schema_ok st schema -> maps_ok w -> mv_fresh st name w ->
  Forall (mv_op_ok st name ts) ops -> mv_fits size bits ts ops ->
  create_multi_vector b e st name schema w = (Ret (Ok v), w1) ->
  mv_run_w W b e lim size bits ts ops v w1 = (Ret (flags, v'), w2) ->
  mv_close_w W b e lim size bits v' w2 = (Ret (Ok (iv, d)), w3) ->
  fold_right Z.add 0 (List.map (items_size ts) (mv_kept ops flags)) + 16 < 2 ^ W /\
  (Z.of_nat (length (mv_kept ops flags)) + 1) * size + 16 < 2 ^ W /\
  mv_run b e lim size bits ts ops v w1 = (Ret (flags, v'), w2) /\ mv_close b e lim size bits v' w2 = (Ret (Ok (iv, d)), w3) /\
  (Forall (eq true) flags ->
   mav_shows ts size bits (mkMav iv d) (buckets ts (mv_kept ops flags)) /\
   stored st name schema (sl_bytes d) w3 /\ stored st (index_name name) (index_schema schema) (sl_bytes iv) w3).
Proof.
  intros HW Wi Wf Hn Hs Ht Sok MO F Ops HL C R Cl.
  destruct (multi_close_ok W HW b e lim size bits ts st name schema ops w v w1 flags v' w2 (iv, d) w3 Wi Wf Hn Hs Ht Sok MO F Ops HL C R Cl)
    as (B1 & B2 & R' & Cl').
  split; [exact B1|]. split; [exact B2|]. split; [exact R'|]. split; [exact Cl'|]. intros Hf.
  destruct (mv_closed_ok b e lim size bits ts st name schema Wi Wf Hn ops w v w1 flags v' w2 iv d w3 Sok MO F Ops HL C R' Cl' (or_introl Hf))
    as (_ & _ & Sh & _ & _ & S1 & S2 & _). auto.
Qed.
Print Assumptions C98_multi.

(** The same for a resource handle; what the successful calls wrote is in the file,
    whatever calls failed in between. *)
Theorem C98_stream W b e st name schema ds w h w1 ans h2 w2 sl h3 w3 : 8 <= W <= 64 ->
  schema_ok st schema -> maps_ok w -> fresh_name st name w -> bytes_ok (concat ds) -> len (concat ds) + 16 <= isize_max ->
  create_handle b e st name schema w = (Ret (Ok h), w1) ->
  handle_run_w W b e (List.map HWrite ds) h w1 = (Ret (ans, h2), w2) ->
  handle_close_w W b e h2 w2 = (Ret (Ok sl, h3), w3) ->
  len (sent ds ans) + 16 < 2 ^ W /\
  handle_run b e (List.map HWrite ds) h w1 = (Ret (ans, h2), w2) /\ handle_close b e h2 w2 = (Ret (Ok sl, h3), w3) /\
  sl_bytes sl = sent ds ans /\ bytes_at (cell_at st name) w3 = Some (resource_bytes (sent ds ans)) /\
  bytes_at (cell_at st (schema_name name)) w3 = Some schema.
Proof. intros HW. exact (stream_close_ok W HW b e st name schema ds w h w1 ans h2 w2 sl h3 w3). Qed.
Print Assumptions C98_stream.

(** The same for archive builders: if all calls succeed and everything started is
    closed, all calls did what they do with 64 bits, in a release build, too, and the
    archive can be opened there and shows what was set. *)
Theorem C98_builder W b e b' e' lim a st w st' w1 ops A flags s' w2 : 8 <= W <= 64 ->
  wf_archive (is_file st) a -> elements_fit (isize_max_w W) a -> maps_ok w -> unused_storage st w ->
  builder_new b e a st w = (Ret (Ok st'), w1) -> history (is_file st) a no_plan ops A -> finished A ->
  brun_w W b e lim a ops (new_bstate st') w1 = (Ret (flags, s'), w2) -> Forall (eq true) flags ->
  writers_fit (2 ^ W - 1) a A /\ brun b e lim a ops (new_bstate st') w1 = (Ret (flags, s'), w2) /\
  (exists r w3, open_archive b' e' a st (set_faults [] w2) = (Ret r, w3) /\
     ((exists x, r = Ok x) <-> sufficient a A) /\ forall x, r = Ok x -> shows_plan a A x) /\
  (forall id base, st = FileStorage id base -> exists r, fresh_open b' e' a base w2 = Ret r /\
     ((exists x, r = Ok x) <-> sufficient a A) /\ forall x, r = Ok x -> shows_plan a A x).
Proof.
  intros HW Wf Ef M Un R Hh Fi Rr Ht.
  destruct (build_w_ok W HW b e lim a st w st' w1 ops A flags s' w2 Wf Ef M Un R Hh Fi Rr Ht) as (F & Rr').
  split; [exact F|]. split; [exact Rr'|]. exact (build_open b e b' e' lim a st w st' w1 ops A flags s' w2 Wf M Un R Hh Fi Rr' Ht).
Qed.
Print Assumptions C98_builder.

(** A closed handle refuses everything, for all widths and in any world. *)
Theorem C98_closed W b e calls h w : is_open h = false ->
  handle_run_w W b e calls h w = (Ret (List.map (refused (h_name h)) calls, h), w).
Proof. exact (closed_run_w W b e calls h w). Qed.
Print Assumptions C98_closed.

(** ** Examples with 8 bits: 239 bytes, with a header and padding of 8 bytes each, are
    less than 2^8, 240 are not. *)
Definition nc_byte := mkStruct 1 [mkField U8 0 8].
Lemma nc_byte_wf : wf_struct nc_byte.
Proof. apply wf_struct_dec. reflexivity. Qed.
Definition nc_ops n := repeat (EGrow [(0%nat, 7)]) n.
Definition nc_vec W b n :=
  match create_external_vector b LE ex_fs "x" [65] ex_w with
  | (Ret (Ok v), w1) =>
      match ev_run_w W b LE 32 nc_byte (nc_ops n) v w1 with
      | (Ret (flags, v'), w2) =>
          omap (fun x => match x with Ok sl => Ok (sl_len sl) | Er x => Er x end) (fst (ev_close_w W b LE v' w2))
      | _ => Panic
      end
  | _ => Panic
  end.
Example C98_example_vector :
  wf_struct nc_byte /\ s_size nc_byte <= isize_max_w 8 /\ schema_ok ex_fs [65] /\ maps_ok ex_w /\ fresh_name ex_fs "x" ex_w /\
  (forall n, Forall (ev_op_ok ex_fs "x" nc_byte) (nc_ops n)) /\ grows (nc_ops 300) * s_size nc_byte + 16 <= isize_max /\
  nc_vec 8 Debug 239 = Ret (Ok 239) /\ nc_vec 8 Release 239 = Ret (Ok 239) /\
  nc_vec 8 Debug 240 = Panic /\ nc_vec 8 Release 240 = Ret (Er EUnexpectedDataSize) /\
  nc_vec 8 Release 256 = Ret (Er EUnexpectedDataSize) /\ nc_vec 8 Release 300 = Ret (Er EUnexpectedDataSize) /\
  nc_vec 16 Release 300 = Ret (Ok 300).
Proof.
  split; [apply nc_byte_wf|]. split; [vm_compute; congruence|]. split; [apply ex_short_schema|]. split; [apply ex_maps|].
  split; [apply ex_fresh_file|]. split.
  { intros n. unfold nc_ops. apply Forall_forall. intros x Hx. apply repeat_spec in Hx. subst x. repeat constructor; cbn; lia. }
  split; [vm_compute; congruence|]. vm_compute. repeat split.
Qed.

Definition nc_buckets n := repeat (MGrow [(1%nat, [(0%nat, 9)])]) n.
Definition nc_multi W b ops :=
  match create_multi_vector b LE ex_fs "x" [65] ex_w with
  | (Ret (Ok v), w1) =>
      match mv_run_w W b LE 14 4 32 ex_ts ops v w1 with
      | (Ret (flags, v'), w2) =>
          omap (fun x => match x with Ok (iv, d) => Ok (sl_len iv, sl_len d) | Er x => Er x end) (fst (mv_close_w W b LE 14 4 32 v' w2))
      | _ => Panic
      end
  | _ => Panic
  end.
(** Buckets of 5 bytes: the data is too large first; empty buckets: the index, and
    then the open handle of the data is dropped, which panics. *)
Example C98_example_multi :
  wf_struct (index_struct 4 32) /\ wf_vdesc ex_ts /\ 4 <= isize_max_w 8 /\ Forall (fun x => s_size (snd x) < isize_max_w 8) ex_ts /\
  mv_schema_ok ex_fs [65] /\ mv_fresh ex_fs "x" ex_w /\
  Forall (mv_op_ok ex_fs "x" ex_ts) (nc_buckets 48) /\ mv_fits 4 32 ex_ts (nc_buckets 48) /\
  nc_multi 8 Debug (nc_buckets 47) = Ret (Ok (192, 235)) /\ nc_multi 8 Release (nc_buckets 47) = Ret (Ok (192, 235)) /\
  nc_multi 8 Debug (nc_buckets 48) = Panic /\ nc_multi 8 Release (nc_buckets 48) = Ret (Er EUnexpectedDataSize) /\
  nc_multi 8 Release (repeat (MGrow []) 58) = Ret (Ok (236, 0)) /\
  nc_multi 8 Release (repeat (MGrow []) 59) = Panic.
Proof.
  split; [apply ex_index_wf|]. split; [apply ex_ts_wf|]. split; [vm_compute; congruence|]. split; [repeat constructor|].
  split; [apply mx_schema|]. split; [apply mx_fresh_file|]. split.
  { apply Forall_forall. intros x Hx. apply repeat_spec in Hx. subst x. repeat constructor; cbn; lia. }
  split; [vm_compute; repeat split; congruence|]. vm_compute. repeat split.
Qed.

Definition nc_stream W b (ds : list (list Z)) (f : list fault) :=
  match create_handle b LE ex_fs "x" [65] ex_w with
  | (Ret (Ok h), w1) =>
      match handle_run_w W b LE (List.map HWrite ds) h (set_faults f w1) with
      | (Ret (ans, h2), w2) =>
          match handle_close_w W b LE h2 w2 with
          | (Ret (Ok sl, h3), w3) => Ret (Ok (ans, sl_len sl, fst (handle_run_w W b LE [HWrite [1]; HClose] h3 w3)))
          | (Ret (Er x, _), _) => Ret (Er x)
          | _ => Panic
          end
      | _ => Panic
      end
  | _ => Panic
  end.
(** In the last one the second of three calls of write fails. *)
Example C98_example_stream :
  schema_ok ex_fs [65] /\ fresh_name ex_fs "x" ex_w /\
  nc_stream 8 Debug [zeros 100; zeros 140] [] = Panic /\
  nc_stream 8 Release [zeros 100; zeros 140] [] = Ret (Er EUnexpectedDataSize) /\
  (forall b, exists h3, nc_stream 8 b [zeros 100; zeros 139] [] =
    Ret (Ok ([AWrite (Ok tt); AWrite (Ok tt)], 239, Ret ([AWrite (Er KUnexpectedEof); AClose (Er (EIo KUnexpectedEof "x"))], h3)))) /\
  (forall b, exists h3, nc_stream 8 b [zeros 100; zeros 140; zeros 139] [FOk; FErr KOther] =
    Ret (Ok ([AWrite (Ok tt); AWrite (Er KOther); AWrite (Ok tt)], 239,
             Ret ([AWrite (Er KUnexpectedEof); AClose (Er (EIo KUnexpectedEof "x"))], h3)))).
Proof.
  split; [apply ex_short_schema|]. split; [apply ex_fresh_file|]. split; [vm_compute; reflexivity|]. split; [vm_compute; reflexivity|].
  split; intros []; eexists; vm_compute; reflexivity.
Qed.

(** The test archive of archive.rs; [C97_example_big] has one that is too large. *)
Example C98_example_builder b e :
  wf_archive true ex_Arch /\ elements_fit (isize_max_w 8) ex_Arch /\ maps_ok ex_w /\ unused_storage ex_fs ex_w /\
  history true ex_Arch no_plan ex_ops ex_plan /\ finished ex_plan /\
  omap fst (fst (nb_build 8 b e ex_ops ex_w)) = Ret (repeat true 12).
Proof.
  split; [apply ex_Arch_wf|]. split; [change (isize_max_w 8) with 127; cbn; repeat (first [exact I | apply conj | apply Forall_nil | apply Forall_cons]; cbn); lia|]. split; [apply ex_maps|].
  split; [split; [simpl; lia|simpl; auto]|]. split; [apply ex_history|]. split; [apply ex_finished|].
  destruct b, e; vm_compute; reflexivity.
Qed.

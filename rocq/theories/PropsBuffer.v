(** Property C80: how much external vectors and multivectors keep in memory, and
    how much of what was added is in the storage already.  [pending] and
    [still_pending] are in BufferSpec. *)
From Verif Require Import Base BaseFacts Codec CodecSpec Structs StructsSpec StructsFacts Views ViewsSpec.
From Verif Require Import Storage PathFacts StorageSpec StorageFacts StorageMore StorageUse PropsStorage.
From Verif Require Import Writers WritersSpec HandleFacts EncodeFacts ElsewhereFacts ExtVecFacts ExtVecUse PropsExtVec.
From Verif Require Import MultiViews MultiSpec MultiViewFacts MultiViewUse PropsMultiViews MultiVecFacts MultiVecUse PropsMultiVec.
From Verif Require Import BufferSpec BufferFacts.
Local Open Scope list_scope.
Local Open Scope Z_scope.

(** C80: after any history (with any I/O failures) exactly the last [k] of the [n]
    elements added are in memory, the others have been handed to the storage.  The
    buffer never has more than 32 MiB and one element. *)
Theorem C80_vector b e s st name schema ops w v w1 flags v' w2 : s_size s + 67108864 <= isize_max ->
  wf_struct s -> maps_ok w -> fresh_name st name w ->
  Forall (ev_op_ok st name s) ops -> grows ops * s_size s + 16 <= isize_max ->
  create_external_vector b e st name schema w = (Ret (Ok v), w1) ->
  ev_run b e FLUSH_LIMIT s ops v w1 = (Ret (flags, v'), w2) ->
  let n := Z.of_nat (List.length (kept ops flags)) in
  let k := pending 33554432 (s_size s) n in
  len (ev_data v') = 8 + k * s_size s /\ len (ev_data v') <= 33554432 + s_size s /\
  h_size (ev_handle v') = (n - k) * s_size s /\
  (Forall (eq true) flags -> exists d, array_of s d (firstn (Z.to_nat (n - k)) (elements s (kept ops flags))) /\
     bytes_at (cell_at st name) w2 = Some (zeros 8 ++ d)).
Proof.
  intros Hs Hwf MO F Ops HL C R n k. pose proof Hwf as (Hpos & _).
  destruct (ev_buffer b e FLUSH_LIMIT st name schema s ops w v w1 flags v' w2) as (A & B & D); auto; change FLUSH_LIMIT with 33554432 in *.
  - lia.
  - unfold isize_max, usize_limit in *. lia.
  - split; [exact A|]. split; [|split; [exact B|exact D]]. rewrite A. apply pending_bound; lia.
Qed.
Print Assumptions C80_vector.

(** The same for every limit, to show the shape of the bound. *)
Theorem C80_vector_any_limit b e lim s st name schema ops w v w1 flags v' w2 : 8 <= lim -> lim + 2 * s_size s < usize_limit ->
  wf_struct s -> maps_ok w -> fresh_name st name w ->
  Forall (ev_op_ok st name s) ops -> grows ops * s_size s + 16 <= isize_max ->
  create_external_vector b e st name schema w = (Ret (Ok v), w1) ->
  ev_run b e lim s ops v w1 = (Ret (flags, v'), w2) ->
  let n := Z.of_nat (List.length (kept ops flags)) in
  let k := pending lim (s_size s) n in
  len (ev_data v') = 8 + k * s_size s /\ h_size (ev_handle v') = (n - k) * s_size s /\
  (Forall (eq true) flags -> exists d, array_of s d (firstn (Z.to_nat (n - k)) (elements s (kept ops flags))) /\
     bytes_at (cell_at st name) w2 = Some (zeros 8 ++ d)).
Proof. exact (ev_buffer b e lim st name schema s ops w v w1 flags v' w2). Qed.
Print Assumptions C80_vector_any_limit.

(** The data of a multivector: the last buckets are in memory; without the last
    one they and the padding have at most 32 MiB.  The index is an external vector. *)
Theorem C80_multi b e size bits ts st name schema ops w v w1 flags v' w2 : size + 67108864 <= isize_max ->
  wf_struct (index_struct size bits) -> wf_vdesc ts -> valid_name name -> maps_ok w ->
  mv_fresh st name w -> Forall (mv_op_ok st name ts) ops -> mv_fits size bits ts ops ->
  create_multi_vector b e st name schema w = (Ret (Ok v), w1) ->
  mv_run b e FLUSH_LIMIT size bits ts ops v w1 = (Ret (flags, v'), w2) ->
  let n := Z.of_nat (List.length (mv_kept ops flags)) in
  len (ev_data (mv_index v')) = 8 + pending 33554432 size n * size /\ len (ev_data (mv_index v')) <= 33554432 + size /\
  (forall m, 0 <= m -> Forall (fun items => items_size ts items <= m) (mv_kept ops flags) -> len (mv_data v') <= 33554432 + m) /\
  exists out kept, mv_kept ops flags = out ++ kept /\ still_pending 33554432 (map (items_size ts) kept) /\
    len (mv_data v') = 8 + sum (map (items_size ts) kept) /\
    h_size (mv_handle v') = sum (map (items_size ts) out) /\
    (Forall (eq true) flags -> exists bs, Forall2 (bucket_of ts) bs (buckets ts out) /\
       bytes_at (cell_at st name) w2 = Some (zeros 8 ++ List.concat bs)).
Proof.
  intros Hs Hwi Hwf Hn MO F Ops HF C R n. pose proof Hwi as (Hpos & _). change (s_size (index_struct size bits)) with size in Hpos.
  destruct (mv_buffer b e FLUSH_LIMIT size bits ts st name schema ops w v w1 flags v' w2) as (A & out & kp & E & P & L & H & D); auto;
    change FLUSH_LIMIT with 33554432 in *.
  - lia.
  - unfold isize_max, usize_limit in *. lia.
  - split; [exact A|]. split; [rewrite A; apply pending_bound; unfold n; lia|]. split; [|exists out, kp; auto].
    intros m Hm Fm. rewrite E in Fm. apply Forall_app in Fm as (_ & Fm). rewrite L.
    destruct kp as [|x front] using rev_ind; [cbn; lia|]. rewrite map_app, sum_app in *. cbn [map] in *.
    specialize (P _ _ eq_refl). apply Forall_app in Fm as (_ & Fm). inversion Fm; subst. unfold sum at 2. cbn. lia.
Qed.
Print Assumptions C80_multi.

(** ** Examples: a limit of 12 bytes, elements of 3 bytes; 2 of 4 elements are in
    the file.  With the limit of the code all of them are still in memory. *)
Definition ex_buffer (lim : Z) :=
  match create_external_vector Debug LE ex_fs "x" [65] ex_w with
  | (Ret (Ok v), w) => match ev_run Debug LE lim ex_struct ex_ops v w with
      | (Ret (flags, v'), w') => Some (flags, ev_data v', bytes_at (cell_at ex_fs "x") w')
      | _ => None
      end
  | _ => None
  end.
Example C80_example_small :
  ex_buffer 12 = Some (repeat true 7, [0; 0; 0; 1; 240; 0] ++ zeros 8, Some (zeros 8 ++ [1; 210; 1; 0; 0; 128])) /\
  pending 12 3 4 = 2.
Proof. split; vm_compute; reflexivity. Qed.
Example C80_example :
  (exists v w1 v' w2, create_external_vector Debug LE ex_fs "x" [65] ex_w = (Ret (Ok v), w1) /\
     ev_run Debug LE FLUSH_LIMIT ex_struct ex_ops v w1 = (Ret (repeat true 7, v'), w2)) /\
  wf_struct ex_struct /\ maps_ok ex_w /\ fresh_name ex_fs "x" ex_w /\ Forall (ev_op_ok ex_fs "x" ex_struct) ex_ops /\
  grows ex_ops * s_size ex_struct + 16 <= isize_max /\ pending 33554432 3 4 = 4 /\ pending 33554432 3 11184810 = 1 /\ pending 33554432 8 4194304 = 4194304.
Proof.
  split; [|split; [exact ex_struct_wf|split; [intros k c; discriminate|split; [exact ex_fresh_file|split; [exact ex_ops_ok|split; [vm_compute; congruence|repeat split]]]]]].
  eexists _, _, _, _. split; [vm_compute; reflexivity|vm_compute; reflexivity].
Qed.
Definition mx_buffer (lim : Z) :=
  match create_multi_vector Debug LE ex_fs "x" [65] ex_w with
  | (Ret (Ok v), w) => match mv_run Debug LE lim 4 32 ex_ts mx_ops v w with
      | (Ret (flags, v'), w') => Some (flags, len (ev_data (mv_index v')), len (mv_data v'), option_map len (bytes_at (cell_at ex_fs "x") w'))
      | _ => None
      end
  | _ => None
  end.
Example C80_multi_example :
  mx_buffer FLUSH_LIMIT = Some (repeat true 5, 20, 21, Some 8) /\ mx_buffer 10 = Some (repeat true 5, 12, 17, Some 12).
Proof. split; vm_compute; reflexivity. Qed.

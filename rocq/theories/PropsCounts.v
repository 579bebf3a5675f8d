(** Property C73: what external vectors and multivectors say about themselves
    while they are written.  Vocabulary as in PropsExtVec.v and PropsMultiVec.v;
    texts are modelled in Text.v. *)
From Verif Require Import Base BaseFacts Codec CodecSpec Structs StructsSpec Views ViewsSpec.
From Verif Require Import Storage PathFacts StorageSpec PropsStorage Writers WritersSpec ExtVecUse PropsExtVec.
From Verif Require Import MultiViews MultiSpec PropsMultiViews MultiVecUse PropsMultiVec Text TextSpec TextFacts CountFacts.
Local Open Scope string_scope.
Local Open Scope list_scope.
Local Open Scope Z_scope.

(** C73: the length is the number of grow calls that succeeded.  The size in the
    text of the handle is that of the elements flushed so far; without failures
    the resource consists of the still empty size field and these elements.  After
    close it is the size of all elements. *)
Theorem C73_external_vector b e lim st name schema s ops w v w1 flags v' w2 :
  wf_struct s -> maps_ok w -> fresh_name st name w ->
  Forall (ev_op_ok st name s) ops -> grows ops * s_size s + 16 <= isize_max ->
  create_external_vector b e st name schema w = (Ret (Ok v), w1) ->
  ev_run b e lim s ops v w1 = (Ret (flags, v'), w2) ->
  let l := kept ops flags in let n := Z.of_nat (List.length l) in
  ev_len v' = n /\ ev_is_open v' = true /\ (ev_is_empty v' = true <-> l = []) /\
  ev_text v' = "ExternalVector { len: " +++ dec n +++ " }" /\
  (exists k d c, handle_text (ev_handle v') = "ResourceHandle { is_open: true, size_in_bytes: " +++ dec k +++ " }" /\
     array_of s d (elements s l) /\ k <= len d /\
     bytes_at (cell_at st name) w2 = Some c /\ 8 + k <= len c /\
     (Forall (eq true) flags -> c = zeros 8 ++ firstn (Z.to_nat k) d)) /\
  (forall v2 w3 r h w4, ev_flush b v' w2 = (Ret (Ok tt, v2), w3) -> handle_close b e (ev_handle v2) w3 = (Ret (Ok r, h), w4) ->
     handle_text h = "ResourceHandle { is_open: false, size_in_bytes: " +++ dec (n * s_size s) +++ " }").
Proof.
  intros Hwf MO F Ops HL C R l n.
  destruct (ev_counts b e lim st name schema s ops w v w1 flags v' w2 Hwf MO F Ops HL C R) as (A & B & (d & c & D) & Cl).
  split; [exact A|]. split; [exact B|]. split.
  { unfold ev_is_empty. rewrite A, Z.eqb_eq. change (Z.of_nat (List.length l) = 0 <-> l = []). destruct l; simpl; split; try discriminate; try lia; auto. }
  split; [unfold ev_text; rewrite A; reflexivity|]. split.
  - exists (h_size (ev_handle v')), d, c. split; [apply (handle_text_of _ true); [exact B|reflexivity]|exact D].
  - intros v2 w3 r h w4 Fl Hc. destruct (Cl v2 w3 r h w4 Fl Hc) as [O S]. apply (handle_text_of _ false); assumption.
Qed.
Print Assumptions C73_external_vector.

(** The length of a multivector is the number of its buckets; the size in the
    text of the handle is that of the items flushed so far. *)
Theorem C73_multi_vector b e lim size bits ts st name schema ops w v w1 flags v' w2 :
  wf_struct (index_struct size bits) -> wf_vdesc ts -> valid_name name -> maps_ok w ->
  mv_fresh st name w -> Forall (mv_op_ok st name ts) ops -> mv_fits size bits ts ops ->
  create_multi_vector b e st name schema w = (Ret (Ok v), w1) ->
  mv_run b e lim size bits ts ops v w1 = (Ret (flags, v'), w2) ->
  let l := mv_kept ops flags in
  mv_text v' = "MultiVector { len: " +++ dec (Z.of_nat (List.length l)) +++ " }" /\
  exists k bs c, handle_text (mv_handle v') = "ResourceHandle { is_open: true, size_in_bytes: " +++ dec k +++ " }" /\
    Forall2 (bucket_of ts) bs (buckets ts l) /\ k <= len (List.concat bs) /\
    bytes_at (cell_at st name) w2 = Some c /\ 8 + k <= len c /\
    (Forall (eq true) flags -> c = zeros 8 ++ firstn (Z.to_nat k) (List.concat bs)).
Proof.
  intros Hwi Hwf Hn MO F Ops Fit C R l.
  destruct (mv_counts b e lim size bits ts st name schema ops w v w1 flags v' w2 Hwi Hwf Hn MO F Ops Fit C R) as (A & B & B' & bs & c & D).
  split; [unfold mv_text; rewrite A; reflexivity|]. exists (h_size (mv_handle v')), bs, c.
  split; [apply (handle_text_of _ true); [exact B'|reflexivity]|exact D].
Qed.
Print Assumptions C73_multi_vector.

(** Different lengths and sizes have different texts. *)
Theorem C73_text_eq : (forall v v', ev_text v = ev_text v' <-> ev_len v = ev_len v') /\
  (forall h h', handle_text h = handle_text h' <-> is_open h = is_open h' /\ h_size h = h_size h').
Proof. split; [exact ev_text_eq|exact handle_text_eq]. Qed.
Print Assumptions C73_text_eq.

(** A failed flush in between: its element is not counted. *)
Definition counts_of (ops : list ev_op) (lim : Z) (f : list fault) :=
  match create_external_vector Debug LE ex_fs "x" [65] ex_w with
  | (Ret (Ok v), w1) =>
      match ev_run Debug LE lim ex_struct ops v (set_faults f w1) with
      | (Ret (flags, v'), w2) => Some (flags, ev_text v', handle_text (ev_handle v'), option_map (skipn 8) (bytes_at (cell_at ex_fs "x") w2))
      | _ => None
      end
  | _ => None
  end.
Definition mv_counts_of (lim : Z) :=
  match create_multi_vector Debug LE ex_fs "x" [65] ex_w with
  | (Ret (Ok v), w1) =>
      match mv_run Debug LE lim 4 32 ex_ts mx_ops v w1 with
      | (Ret (flags, v'), w2) => Some (flags, mv_text v', handle_text (mv_handle v'))
      | _ => None
      end
  | _ => None
  end.
Example C73_example :
  (wf_struct ex_struct /\ fresh_name ex_fs "x" ex_w /\ Forall (ev_op_ok ex_fs "x" ex_struct) ex_ops) /\
  counts_of ex_ops 12 [] = Some ([true; true; true; true; true; true; true], "ExternalVector { len: 4 }",
    "ResourceHandle { is_open: true, size_in_bytes: 6 }", Some [1; 210; 1; 0; 0; 128]) /\
  counts_of ex_grows 12 [FShort 2 KOther] = Some ([true; true; false; true], "ExternalVector { len: 3 }",
    "ResourceHandle { is_open: true, size_in_bytes: 6 }", Some [7; 0; 7; 0; 0; 8; 0; 0]) /\
  mv_counts_of 10 = Some ([true; true; true; true; true], "MultiVector { len: 3 }", "ResourceHandle { is_open: true, size_in_bytes: 4 }").
Proof.
  split; [split; [apply ex_struct_wf|]; split; [apply ex_fresh_file|apply ex_ops_ok]|]. vm_compute. repeat split.
Qed.

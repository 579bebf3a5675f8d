(** Properties C75 and C76: what errors tell.
    Vocabulary: [script] (an edit script between two texts), [shown], [marked]
    (how a diff is read) in DiffSpec.v; [required_reads], [first_failure],
    [reports] in ErrorSpec.v; [finds] in StorageSpec.v. *)
From Verif Require Import Base BaseFacts Codec CodecSpec Structs StructsSpec Views ViewsSpec.
From Verif Require Import Storage PathFacts StorageSpec StorageFacts StorageMore PropsStorage Writers WritersSpec MultiViews MultiSpec.
From Verif Require Import Archives ArchiveSpec PropsArchive Diff DiffSpec DiffFacts ErrorSpec ErrorFacts.
Local Open Scope list_scope.
Local Open Scope Z_scope.

(** ** C75: the diff in WrongSignature shows the stored schema, the expected
    schema, and at least one difference, whatever edit script was found. *)
Theorem C75_diff b e st name expected w n w' : maps_ok w ->
  read b e st name expected w = (Ret (Er (EWrongSignature n)), w') ->
  n = name /\ exists stored, finds st w (schema_name name) (Some stored) /\
    forall es, script stored expected es -> let text := compute_diff es in
      join_lines (shown 45 text) = stored /\ join_lines (shown 43 text) = expected /\ marked text.
Proof.
  intros M R. destruct (wrong_signature_found b e st name expected w n w' M R) as (E & sc & F & N). split; [exact E|].
  exists sc. split; [exact F|]. intros es S text. destruct (diff_shows sc expected es S) as (A & B & C). auto.
Qed.
Print Assumptions C75_diff.

Theorem C75_description x y : description x = description y <-> same_kind x y.
Proof. destruct x, y; simpl; split; intros H; try exact I; try reflexivity; try discriminate; contradiction. Qed.
Print Assumptions C75_description.

(** The texts. *)
Example C75_texts : forall k n,
  map description [EIo k n; EMissingSchema n; EUnexpectedDataSize; EUtf8; EWrongSignature n] =
  ["resource io error"; "schema of resource is missing"; "resource has unexpected size"; "utf8 error in schema";
   "schema is not matching expected schema"]%string.
Proof. reflexivity. Qed.

(** A field was renamed. *)
Definition ex_edits := [Both (str "struct A {") (str "struct A {"); Left (str "  x : u8;"); Right (str "  y : u8;"); Both (str "}") (str "}")].
Definition lf (l : list string) : list Z := join_lines (map str l).
Example C75_example : forall b e,
  let stored := lf ["struct A {"; "  x : u8;"; "}"]%string in
  let expected := lf ["struct A {"; "  y : u8;"; "}"]%string in
  let w := put_res "/d" "r" stored [1; 2] ex_w in
  maps_ok w /\ fresh_read b e "/d" "r" expected w = Ret (Er (EWrongSignature "r")) /\
  fst (read b e ex_fs "r" expected w) = Ret (Er (EWrongSignature "r")) /\
  script stored expected ex_edits /\
  compute_diff ex_edits = lf [" struct A {"; "-  x : u8;"; "+  y : u8;"; " }"]%string.
Proof.
  intros b e. cbv zeta. split; [intros id p l; discriminate|]. split; [destruct b, e; vm_compute; reflexivity|].
  split; [destruct b, e; vm_compute; reflexivity|]. split; [|vm_compute; reflexivity].
  split; [vm_compute; reflexivity|vm_compute; reflexivity|]. intros x y [H|[H|[H|[H|[]]]]]; congruence.
Qed.

(** The hypothesis matters: if lines were taken without a carriage return at
    their end, these two schemas would have a diff without marks. *)
Definition ex_crlf := [Both [97] [97]; Both [98] [98]].
Example C75_crlf_example : lines_of [97; 13; 10; 98] = [[97; 13]; [98]] /\ lines_of [97; 10; 98] = [[97]; [98]] /\
  compute_diff ex_crlf = [32; 97; 10; 32; 98] /\ ~ marked (compute_diff ex_crlf).
Proof.
  repeat split. intros (c & x & H & Hc). simpl in H. destruct H as [H|[H|[]]]; injection H as <- _; lia.
Qed.

(** ** C76: the error of open is that of the first required part that can not be
    read; nothing else makes it fail. *)
Theorem C76_first_error b e a base w : disk_ok w -> (b = Release \/ forall base n, tame (PDisk base w) n) ->
  exists r, fresh_open b e a base w = Ret r /\
    forall x, r = Er x <-> exists q, first_failure b e w (required_reads a base) q x.
Proof. intros D T. apply open_first_error. intros. apply reads_return; auto. Qed.
Print Assumptions C76_first_error.

(** The error names a required part, if it names one, also if system calls fail;
    it is never MissingSchema. *)
Theorem C76_names_partial b e :
  (forall a st w x w' base, open_archive b e a st w = (Ret (Er x), w') -> reports (names_of (required_reads a base)) x) /\
  (forall st n s w x w', read b e st n s w = (Ret (Er x), w') -> reports [n] x) /\
  (forall st n s w x w', create_archive b e st n s w = (Ret (Er x), w') -> reports [signature_name n] x).
Proof.
  split; [|split].
  - intros a st w x w' base H. eapply errs_open; exact H.
  - intros st n s w x w' H. eapply errs_read; exact H.
  - intros st n s w x w' H. eapply errs_create_archive; exact H.
Qed.
Print Assumptions C76_names_partial.

(** A missing schema is not reported as such: the error is the same as if the
    data were missing. *)
Theorem C76_missing_schema_refuted b e base name expected w : let st := FileStorage 0 base in
  present st (schema_name name) w = false ->
  (exists c, c <> [] /\ w_files w (res_key st name) = Some c) \/ present st name w = false ->
  fresh_read b e base name expected w = Ret (Er (EIo KNotFound name)).
Proof. exact (missing_not_found b e base name expected w). Qed.
Print Assumptions C76_missing_schema_refuted.

Example C76_missing_example : forall b e, let w := put "/d/r" (resource_bytes [1]) ex_w in
  present (FileStorage 0 "/d") "r.schema" w = false /\ w_files w (res_key (FileStorage 0 "/d") "r") = Some (resource_bytes [1]) /\
  fresh_read b e "/d" "r" [65] w = Ret (Er (EIo KNotFound "r")) /\ fresh_read b e "/d" "r" [65] ex_w = Ret (Er (EIo KNotFound "r")).
Proof. intros [] []; vm_compute; repeat split. Qed.

(** The error does not tell which resource failed: neither if the size is wrong,
    nor if the archive and its sub-archive use the same name. *)
Definition ex_twice := mkArchive "T" [65] [] [] [] [mkRaw "x" [66] false] [("s"%string, mkArchive "S" [67] [] [] [] [mkRaw "x" [68] false] [], false)].
Definition ex_both (w : world) : world :=
  put_res "/d" "T.archive" [65] [] (put_res "/d" "x" [66] [1] (put_res "/d/s" "S.archive" [67] [] (put_res "/d/s" "x" [68] [2] w))).
Theorem C76_which_refuted : forall b e,
  glances (fresh_open b e ex_twice "/d" (ex_both ex_w)) = Ret (Ok ([], [], [None; None], [Some [1]], [Some [Some [2]]])) /\
  fresh_open b e ex_twice "/d" (put "/d/x.schema" [69] (ex_both ex_w)) = Ret (Er (EWrongSignature "x")) /\
  fresh_open b e ex_twice "/d" (put "/d/s/x.schema" [69] (ex_both ex_w)) = Ret (Er (EWrongSignature "x")) /\
  fresh_open b e ex_twice "/d" (put "/d/x" [1] (ex_both ex_w)) = Ret (Er EUnexpectedDataSize) /\
  fresh_open b e ex_twice "/d" (put "/d/T.archive" [1] (ex_both ex_w)) = Ret (Er EUnexpectedDataSize).
Proof. intros [] []; vm_compute; repeat split. Qed.
Print Assumptions C76_which_refuted.

(** The vector and the sub-archive can not be read; the vector is reported. *)
Definition ex_bad := put "/d/v.schema" [69] (put "/d/arch/raw" [1] (put "/d/w.schema" [70] (put "/d/w" [1] (ex_required ex_w)))).
Example C76_example :
  disk_ok ex_bad /\ names_of (required_reads ex_Arch "/d") =
    ["Arch.archive"; "a"; "v"; "mv_index"; "mv"; "r"; "SubArch.archive"; "raw"]%string /\
  (exists q, first_failure Release LE ex_bad (required_reads ex_Arch "/d") q (EWrongSignature "v")) /\
  fresh_open Release LE ex_Arch "/d" ex_bad = Ret (Er (EWrongSignature "v")).
Proof.
  split; [unfold ex_bad, ex_required, put_res; do 20 put_solve; intros k c; discriminate|].
  split; [vm_compute; reflexivity|]. split; [|vm_compute; reflexivity].
  exists ("/d"%string, "v"%string, str "v schema"). exists (firstn 2 (required_reads ex_Arch "/d")), (skipn 3 (required_reads ex_Arch "/d")).
  split; [vm_compute; reflexivity|]. split; [|vm_compute; reflexivity].
  intros q [<-|[<-|[]]]; eexists; vm_compute; reflexivity.
Qed.

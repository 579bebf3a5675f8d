(** Properties C44, C46: opening archives.
    Vocabulary (ArchiveSpec.v): [place] (where an archive is read), [holds] (a
    resource is there with its schema), [checks] (everything required is there),
    [opened] (an opened archive shows what is there), [visible]. *)
From Verif Require Import Base BaseFacts Codec CodecSpec CodecFacts Structs StructsSpec StructsFacts Views ViewsSpec ViewsFacts.
From Verif Require Import Storage PathFacts StorageSpec StorageFacts StorageMore StorageUse PropsStorage.
From Verif Require Import Writers WritersSpec MultiViews MultiSpec Archives ArchiveSpec ArchiveFacts.
Local Open Scope list_scope.
Local Open Scope Z_scope.

(** The archives of the test in archive.rs:813-877. *)
Definition ex_A := mkStruct 4 [mkField U32 0 16; mkField U32 16 16].
Definition ex_Ts : vdesc := [(0, ex_A); (1, ex_A)].
Definition ex_SubArch := mkArchive "SubArch" (str "SubArch schema") [] [] [] [mkRaw "raw" (str "raw schema") false] [].
Definition ex_Arch := mkArchive "Arch" (str "Arch schema")
  [mkTyped "a" ex_A (str "a schema") false; mkTyped "b" ex_A (str "b schema") true]
  [mkTyped "v" ex_A (str "v schema") false; mkTyped "w" ex_A (str "w schema") true]
  [mkMulti "mv" ex_Ts (str "mv schema") "mv_index" 4 32 false; mkMulti "mw" ex_Ts (str "mw schema") "mw_index" 4 32 true]
  [mkRaw "r" (str "r schema") false; mkRaw "s" (str "s schema") true]
  [("arch"%string, ex_SubArch, false); ("opt_arch"%string, ex_SubArch, true)].

(** C44: without failing system calls, open returns, it returns Ok exactly if
    everything required checks out, and what it returns shows what is there. *)
Theorem C44_open_partial b e a st w : let p := PStorage st w in
  w_faults w = [] -> maps_ok w -> (st_id st < w_next w)%nat -> everywhere readable a p ->
  (b = Release \/ everywhere tame a p) ->
  exists r w', open_archive b e a st w = (Ret r, w') /\
    ((exists x, r = Ok x) <-> checks a p) /\ (forall x, r = Ok x -> opened true a p x).
Proof. exact (open_exact b e a st w). Qed.
Print Assumptions C44_open_partial.

(** Whatever happens, opening writes no file and no stream, Ok is right, and
    there is no undefined behaviour. *)
Theorem C44_open_sound b e a st w o w' : let p := PStorage st w in
  maps_ok w -> (st_id st < w_next w)%nat -> everywhere readable a p ->
  open_archive b e a st w = (o, w') ->
  w_files w' = w_files w /\ w_dirs w' = w_dirs w /\
  (forall id, (id < w_next w)%nat -> w_streams w' id = w_streams w id) /\
  o <> UB /\ (forall x, o = Ret (Ok x) -> checks a p /\ opened false a p x).
Proof. exact (open_sound b e a st w o w'). Qed.
Print Assumptions C44_open_sound.

(** There is only one thing to show. *)
Theorem C44_open_unique a p x y : opened true a p x -> opened true a p y -> visible x = visible y.
Proof. exact (opened_fun a p x y). Qed.
Print Assumptions C44_open_unique.

(** The same for a new process and a directory with arbitrary files. *)
Theorem C44_fresh_open_partial b e a base w : let p := PDisk base w in
  disk_ok w -> (b = Release \/ everywhere tame a p) ->
  exists r, fresh_open b e a base w = Ret r /\
    ((exists x, r = Ok x) <-> checks a p) /\ (forall x, r = Ok x -> opened true a p x).
Proof. exact (fresh_open_exact b e a base w). Qed.
Print Assumptions C44_fresh_open_partial.

(** A directory with the required resources, one optional vector, half of an
    optional multivector, an optional resource with the wrong schema and an
    optional sub-archive without its resource. *)
Definition put_res (base n : string) (schema d : list Z) (w : world) : world :=
  put (path_join base n) (resource_bytes d) (put (path_join base (schema_name n)) schema w).
Definition ex_required (w : world) : world :=
  put_res "/d" "Arch.archive" (str "Arch schema") [] (put_res "/d" "a" (str "a schema") [1; 2; 3; 4]
 (put_res "/d" "v" (str "v schema") [1; 0; 2; 0; 3; 0; 4; 0] (put_res "/d" "mv" (str "mv schema") [1; 5; 0; 6; 0]
 (put_res "/d" "mv_index" (str "index(mv schema)") [0; 0; 0; 0; 5; 0; 0; 0]
 (put_res "/d" "r" (str "r schema") [9]
 (put_res "/d/arch" "SubArch.archive" (str "SubArch schema") []
 (put_res "/d/arch" "raw" (str "raw schema") [8; 8] w))))))).
Definition ex_optional (w : world) : world :=
  put_res "/d" "w" (str "w schema") [] (put_res "/d" "mw" (str "mw schema") []
 (put_res "/d" "s" (str "other schema") [1]
 (put_res "/d/opt_arch" "SubArch.archive" (str "SubArch schema") [] w))).
(** The data seen, in the order of the definition. *)
Definition glance (x : archive) :=
  (map (option_map sl_bytes) (ar_structs x), map (option_map sl_bytes) (ar_vectors x),
   map (fun k => match get_multi x k with Some v => Some (sl_bytes (ma_index v), sl_bytes (ma_data v)) | None => None end) [0; 1]%nat,
   map (option_map sl_bytes) (ar_raws x),
   map (option_map (fun y => map (option_map sl_bytes) (ar_raws y))) (ar_subs x)).
Definition glances (r : outcome (result archive rs_error)) :=
  omap (fun r => match r with Ok x => Ok (glance x) | Er k => Er k end) r.

Lemma put_ok p c w : disk_ok w -> stored_ok c -> disk_ok (put p c w).
Proof.
  intros D C k x. unfold put. simpl. unfold kupd. destruct (key_eqb k (key_of p)); [intros [= <-]; exact C|apply D].
Qed.
Fixpoint stored_check (c : list Z) : bool :=
  match c with [] => true | x :: r => (0 <=? x) && (x <? 256) && stored_check r end.
Lemma stored_check_ok c : stored_check c = true -> len c <= isize_max -> stored_ok c.
Proof.
  intros H L. split; [|exact L]. clear L. induction c as [|x c IH]; [constructor|]. simpl in H.
  apply andb_prop in H. destruct H as (H & Hc). apply andb_prop in H. destruct H as (H1 & H2).
  constructor; [unfold is_byte; lia|exact (IH Hc)].
Qed.
Ltac put_solve := apply put_ok; [|apply stored_check_ok; [vm_compute; reflexivity|vm_compute; congruence]].
Lemma ex_arch_disk : disk_ok (ex_optional (ex_required ex_w)).
Proof. unfold ex_optional, ex_required, put_res. do 24 put_solve. intros k c. discriminate. Qed.

Example C44_example : forall b, glances (fresh_open b LE ex_Arch "/d" (ex_optional (ex_required ex_w))) =
  Ret (Ok ([Some [1; 2; 3; 4]; None], [Some [1; 0; 2; 0; 3; 0; 4; 0]; Some []],
           [Some ([0; 0; 0; 0; 5; 0; 0; 0], [1; 5; 0; 6; 0]); None], [Some [9]; None],
           [Some [Some [8; 8]]; None])) /\
  fresh_open b LE ex_Arch "/d" (put "/d/arch/raw.schema" [65] (ex_required ex_w)) = Ret (Er (EWrongSignature "raw")) /\
  fresh_open b LE ex_Arch "/d" (put "/d/mv_index" [] (ex_required ex_w)) = Ret (Er (EIo KInvalidInput "mv_index")) /\
  fresh_open b LE ex_Arch "/d" ex_w = Ret (Er (EIo KNotFound "Arch.archive")).
Proof. intros []; vm_compute; repeat split. Qed.

(** In debug builds an optional resource can prevent opening by a panic: its
    size header overflows the comparison (cf. C25). *)
Definition ex_one := mkArchive "One" [65] [] [] [] [mkRaw "r" [66] true] [].
Definition ex_overflow (w : world) : world :=
  put_res "/d" "One.archive" [65] [] (put "/d/r" (le_bytes 8 (2 ^ 64 - 1) ++ zeros 8) (put "/d/r.schema" [66] w)).
Theorem C44_open_refuted : let w := ex_overflow ex_w in
  disk_ok w /\ checks ex_one (PDisk "/d" w) /\
  fresh_open Debug LE ex_one "/d" w = Panic /\ glances (fresh_open Release LE ex_one "/d" w) = Ret (Ok ([], [], [None; None], [None], [])).
Proof.
  split; [|split; [|split; vm_compute; reflexivity]].
  - unfold ex_overflow, put_res. do 4 put_solve. intros k c. discriminate.
  - cbn [checks ex_one]. split; [|split; [intros r []|split; [intros r []|split; [intros r [<-|[]]; discriminate|exact I]]]].
    exists [], (resource_bytes []), (zeros 8). vm_compute. repeat split.
Qed.
Print Assumptions C44_open_refuted.

(** C46: a getter of a struct resource shows the record if the resource is not
    shorter than the struct; nothing checks that. *)
Theorem C46_struct_getter_partial b e strict a p x k r m : opened strict a p x -> nth_error (ad_structs a) k = Some r ->
  get_struct x k = Some m -> wf_struct (tr_struct r) ->
  exists d, holds p (tr_name r) (tr_schema r) d /\ firstn (length d) m = d /\ len m = len d + 8 /\
    (s_size (tr_struct r) <= len d ->
      shows b e (tr_struct r) d (decode (tr_struct r) d) /\ shows b e (tr_struct r) m (decode (tr_struct r) d)).
Proof. exact (struct_getter b e strict a p x k r m). Qed.
Print Assumptions C46_struct_getter_partial.

Definition ex_big := mkStruct 16 [mkField U64 0 64; mkField U64 64 64].
Definition ex_short := mkArchive "Short" [65] [mkTyped "x" ex_big [66] false] [] [] [] [].
Theorem C46_struct_getter_refuted : let w := put_res "/d" "Short.archive" [65] [] (put_res "/d" "x" [66] [1] ex_w) in
  wf_struct ex_big /\ disk_ok w /\
  match fresh_open Debug LE ex_short "/d" w with
  | Ret (Ok x) => match get_struct x 0 with
      | Some m => get_field Debug LE (field_nth ex_big 0) m = Ret 1 /\ get_field Debug LE (field_nth ex_big 1) m = UB
      | None => False
      end
  | _ => False
  end.
Proof.
  split; [apply wf_struct_dec; reflexivity|]. split.
  - unfold put_res. do 4 put_solve. intros k c. discriminate.
  - vm_compute. repeat split.
Qed.
Print Assumptions C46_struct_getter_refuted.

(** Passing such a handle to a setter copies the record (and not what follows it)
    if the resource is not shorter than the struct; else the setter reads behind
    the resource. *)
Theorem C46_struct_setter_partial b e strict a p x k r m st r' w : opened strict a p x -> nth_error (ad_structs a) k = Some r ->
  get_struct x k = Some m -> wf_struct (tr_struct r) -> tr_struct r' = tr_struct r ->
  exists d, holds p (tr_name r) (tr_schema r) d /\
    (s_size (tr_struct r) <= len d ->
      set_struct b e st r' m w = write b e st (tr_name r') (tr_schema r') (firstn (Z.to_nat (s_size (tr_struct r))) d) w).
Proof.
  intros O N G W E. destruct (struct_getter b e strict a p x k r m O N G W) as (d & H & Hf & Hl & _).
  exists d. split; [exact H|]. intros L. unfold set_struct. rewrite E. replace (s_size (tr_struct r) <=? len m) with true by lia.
  replace (firstn (Z.to_nat (s_size (tr_struct r))) m) with (firstn (Z.to_nat (s_size (tr_struct r))) d); [reflexivity|].
  rewrite <- Hf, firstn_firstn. f_equal. unfold len in L. lia.
Qed.
Print Assumptions C46_struct_setter_partial.
Theorem C46_struct_setter_refuted : let w := put_res "/d" "Short.archive" [65] [] (put_res "/d" "x" [66] [1] ex_w) in
  wf_struct ex_big /\ disk_ok w /\
  match fresh_open Debug LE ex_short "/d" w with
  | Ret (Ok x) => match get_struct x 0 with
      | Some m => forall b e, fst (set_struct b e ex_ms (mkTyped "y" ex_big [66] false) m w) = UB
      | None => False
      end
  | _ => False
  end.
Proof.
  split; [apply wf_struct_dec; reflexivity|]. split.
  - unfold put_res. do 4 put_solve. intros k c. discriminate.
  - vm_compute. reflexivity.
Qed.
Print Assumptions C46_struct_setter_refuted.

Example C46_example :
  match fresh_open Debug LE ex_Arch "/d" (ex_optional (ex_required ex_w)) with
  | Ret (Ok x) => option_map (get_all Debug LE ex_A) (get_struct x 0) = Some (Ret [513; 1027]) /\
      option_map (fun m => fst (set_struct Debug LE ex_ms (mkTyped "y" ex_A [66] false) m ex_w)) (get_struct x 0) = Some (Ret (Ok tt))
  | _ => False
  end.
Proof. vm_compute. split; reflexivity. Qed.

(** C71: every getter of an opened archive returns the data that is there under
    the name and with the schema of its resource.  It returns [None] only for
    optional resources.  Half a multivector is none. *)
Theorem C71_getters strict a p x : opened strict a p x ->
  (forall k r, nth_error (ad_structs a) k = Some r ->
     match get_struct x k with
     | Some m => exists d, holds p (tr_name r) (tr_schema r) d /\ firstn (length d) m = d /\ len m = len d + 8
     | None => tr_opt r = true /\ (strict = true -> forall d, ~ holds p (tr_name r) (tr_schema r) d)
     end) /\
  (forall k r, nth_error (ad_vectors a) k = Some r ->
     match get_vector x k with
     | Some sl => holds p (tr_name r) (tr_schema r) (sl_bytes sl) /\ slice_ok sl
     | None => tr_opt r = true /\ (strict = true -> forall d, ~ holds p (tr_name r) (tr_schema r) d)
     end) /\
  (forall k r, nth_error (ad_multis a) k = Some r ->
     match get_multi x k with
     | Some (mkMav i d) =>
         holds p (mr_index r) (index_schema (mr_schema r)) (sl_bytes i) /\ slice_ok i /\
         holds p (mr_name r) (mr_schema r) (sl_bytes d) /\ slice_ok d
     | None => mr_opt r = true /\ (strict = true ->
         (forall d, ~ holds p (mr_index r) (index_schema (mr_schema r)) d) \/ (forall d, ~ holds p (mr_name r) (mr_schema r) d))
     end) /\
  (forall k r, nth_error (ad_raws a) k = Some r ->
     match get_raw x k with
     | Some sl => holds p (rr_name r) (rr_schema r) (sl_bytes sl) /\ slice_ok sl
     | None => rr_opt r = true /\ (strict = true -> forall d, ~ holds p (rr_name r) (rr_schema r) d)
     end) /\
  (forall k n a' opt, nth_error (ad_subs a) k = Some (n, a', opt) ->
     match get_sub x k with
     | Some x' => opened strict a' (sub_place p n) x'
     | None => opt = true /\ (strict = true -> forall x', ~ opened strict a' (sub_place p n) x')
     end).
Proof. exact (getters strict a p x). Qed.
Print Assumptions C71_getters.

(** The directory of the example above: half of "mw" is there. *)
Example C71_example :
  match fresh_open Debug LE ex_Arch "/d" (ex_optional (ex_required ex_w)) with
  | Ret (Ok x) =>
      option_map sl_bytes (get_vector x 0) = Some [1; 0; 2; 0; 3; 0; 4; 0] /\
      option_map (fun v => let 'mkMav i d := v in (sl_bytes i, sl_bytes d)) (get_multi x 0) = Some ([0; 0; 0; 0; 5; 0; 0; 0], [1; 5; 0; 6; 0]) /\
      get_multi x 1 = None /\ nth 1 (ar_multis x) (None, None) <> (None, None) /\
      option_map sl_bytes (get_raw x 0) = Some [9] /\ get_raw x 1 = None /\
      option_map (fun y => option_map sl_bytes (get_raw y 0)) (get_sub x 0) <> None
  | _ => False
  end.
Proof. vm_compute. repeat split; discriminate. Qed.

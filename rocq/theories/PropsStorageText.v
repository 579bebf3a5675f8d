(** Property C106: what storages say about themselves.
    Vocabulary (StorageText.v, StorageTextSpec.v): [storage_says] (the text of a
    storage), [mem_text], [file_text] (its form), [entries_are] (the mapped files with
    the lengths of the mappings in the order of their paths), [tally] (which names have
    been written and read), [no_storages] (a new process). *)
From Verif Require Import Base BaseFacts Codec Storage PathFacts StorageSpec StorageFacts StorageMore StorageUse PropsStorage Text ErrorText ErrorTextSpec ErrorTextFacts.
From Verif Require Import StorageText StorageTextSpec StorageTextFacts.
Local Open Scope string_scope.
Local Open Scope list_scope.
Local Open Scope Z_scope.

(** After any program each storage has exactly one text. *)
Theorem C106_one v mm A (m : M A) w0 o w st : api m -> no_storages w0 -> m w0 = (o, w) ->
  exists t, storage_says v mm w st t /\ forall t', storage_says v mm w st t' -> t' = t.
Proof.
  intros Ha N R. destruct (tidy_says v mm w st) as (t & T); [eapply api_tidy; [exact Ha|exact R|apply no_storages_tidy, N]|].
  exists t. split; [exact T|]. intros t'. apply says_unique. exact T.
Qed.
Print Assumptions C106_one.

(** A memory storage counts the names that were written and those that were read,
    each together with the schema; also reads that return an error count. *)
Theorem C106_memory v mm b e base calls w0 st w : Forall (fun c => valid_name (call_name c)) calls ->
  (let! st := mem_new base in let! _ := run_calls b e st calls in mret st) w0 = (Ret st, w) ->
  let (written, seen) := tally calls [] [] in
  storage_says v mm w st (mem_text v (List.length written) (List.length seen) base).
Proof. intros V R. assert (X := calls_memory v mm b e base calls w0 st w V R). destruct (tally calls [] []). exact X. Qed.
Print Assumptions C106_memory.

(** It never counts more resources than streams. *)
Theorem C106_fewer v mm A (m : M A) w0 o w id base t : api m -> no_storages w0 -> m w0 = (o, w) ->
  storage_says v mm w (MemStorage id base) t ->
  exists streams resources, t = mem_text v streams resources base /\ (resources <= streams)%nat.
Proof.
  intros Ha N R T. inversion T as [? ? ks kr K1 K2|]; subst. exists (List.length ks), (List.length kr). split; [reflexivity|].
  eapply tidy_fewer; [eapply api_tidy; [exact Ha|exact R|apply no_storages_tidy, N]|exact K1|exact K2].
Qed.
Print Assumptions C106_fewer.

(** The text tells the two numbers and the path. *)
Theorem C106_tells v s r base s' r' base' : mem_text v s r base = mem_text v s' r' base' -> s = s' /\ r = r' /\ base = base'.
Proof. apply mem_text_inj; apply str_chars. Qed.
Print Assumptions C106_tells.

(** A file storage lists, besides those before, the file of a resource that was read
    and the file of its schema, with their lengths, and no others ... *)
Theorem C106_file_read b e id base n expected w sl w' maps : disk_ok w -> maps_ok w -> entries_are maps (w_maps w id) ->
  read b e (FileStorage id base) n expected w = (Ret (Ok sl), w') ->
  exists maps', (forall v mm, storage_says v mm w' (FileStorage id base) (file_text v mm maps' base)) /\
    forall x, In x maps' <-> In x maps \/
      x = (res_path (FileStorage id base) n, sl_len sl + 16) \/ x = (res_path (FileStorage id base) (schema_name n), len expected).
Proof.
  intros D MO L R. destruct (file_read_entries b e id base n expected w sl w' maps D MO L R) as (maps' & L' & X).
  exists maps'. split; [intros v mm; apply says_file, L'|exact X].
Qed.
Print Assumptions C106_file_read.

(** ... and writing, whatever it returns, changes no text. *)
Theorem C106_file_write v mm b e id base n schema data w o w' st t : write b e (FileStorage id base) n schema data w = (o, w') ->
  storage_says v mm w st t <-> storage_says v mm w' st t.
Proof. intros R. eapply same_says, file_write_names, R. Qed.
Print Assumptions C106_file_write.

(** "x" is written twice, it is read, and "y" is not there; the schema of the schema is
    not there, either. *)
Definition say_calls := [CWrite "x" [65] [1; 2]; CRead "y" [65]; CWrite "z" [66] []; CRead "x" [66]; CWrite "x" [65] [3]; CExists "y"; CRead "x.schema" [65]].
Definition say_std := mkStd false true (fun _ => true).
Definition say_mm (p : string) (n : Z) : list Z := str "Mmap { len: " ++ str (dec n) ++ str " }".
Example C106_memory_example :
  Forall (fun c => valid_name (call_name c)) say_calls /\
  match (let! st := mem_new "/r""t" in let! _ := run_calls Debug LE st say_calls in mret st) ex_w with
  | (Ret st, w) => st = MemStorage 2 "/r""t"
  | _ => False
  end /\
  tally say_calls [] [] = (["z.schema"; "z"; "x.schema"; "x"], ["x.schema"; "x"]) /\
  mem_text say_std 4 2 "/r""t" = str "MemoryResourceStorage { storage: MemoryStorage { num_streams: 4, num_resources: 2 }, path: ""/r\""t"" }".
Proof.
  split; [repeat constructor; discriminate|]. split; [vm_compute; reflexivity|]. split; vm_compute; reflexivity.
Qed.
Example C106_file_example :
  let w := snd (write Debug LE (FileStorage 0 "/d") "x" [65; 66] [1; 2; 3] ex_w) in
  let (o, w') := read Debug LE (FileStorage 0 "/d") "x" [65; 66] w in
  (exists sl, o = Ret (Ok sl) /\ sl_len sl = 3) /\ entries_are [] (w_maps w 0) /\ maps_ok w /\
  entries_are [("/d/x", 19); ("/d/x.schema", 2)] (w_maps w' 0) /\
  file_text say_std say_mm [("/d/x", 19); ("/d/x.schema", 2)] "/d" =
    str "FileResourceStorage { storage: MemoryMappedFileStorage { maps: RefCell { value: {""/d/x"": Mmap { len: 19 }, ""/d/x.schema"": Mmap { len: 2 }} } }, path: ""/d"" }".
Proof.
  set (w := snd _). cbv zeta. assert (M : w_maps (snd (read Debug LE (FileStorage 0 "/d") "x" [65; 66] w)) 0%nat =
    supd "/d/x.schema" (Some 2) (supd "/d/x" (Some 19) (fun _ => None))) by (vm_compute; reflexivity).
  assert (O : exists sl, fst (read Debug LE (FileStorage 0 "/d") "x" [65; 66] w) = Ret (Ok sl) /\ sl_len sl = 3)
    by (eexists; split; vm_compute; reflexivity).
  destruct (read Debug LE _ _ _ w) as [o w']. cbn [fst snd] in M, O. split; [exact O|].
  split; [split; [constructor|]; intros p n; split; [intros []|vm_compute; discriminate]|].
  split; [intros id p l H; vm_compute in H; discriminate H|]. split; [|reflexivity].
  split; [repeat constructor|]. intros p n. rewrite M. unfold supd. cbn [In].
  destruct (String.eqb_spec p "/d/x.schema") as [->|N1]; [|destruct (String.eqb_spec p "/d/x") as [->|N2]].
  - split; [intros [H|[H|[]]]; [discriminate H|congruence]|intros [= <-]; auto].
  - split; [intros [H|[H|[]]]; [congruence|discriminate H]|intros [= <-]; auto].
  - split; [intros [H|[H|[]]]; congruence|discriminate].
Qed.

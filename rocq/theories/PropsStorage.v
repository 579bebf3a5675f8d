(** Properties C22 - C30, C35, C48, C53, C54, C56: storages.
    Vocabulary (StorageSpec.v): [finds] (what a reader of a storage finds under
    a name), [framed]/[resource_bytes] (the format of a resource), [verdict]
    (the decision of read about stored bytes), [api] (arbitrary programs using
    storages), [fresh_read] (a new process opens the directory and reads),
    [undisturbed], [ready], [fresh_name]. *)
From Verif Require Import Base BaseFacts Codec CodecSpec CodecFacts Storage PathFacts StorageSpec.
From Verif Require Import StorageFacts StorageMore StorageUse.
From Verif Require Import Utf8Spec Utf8Facts.
Local Open Scope list_scope.
Local Open Scope Z_scope.

(** A memory storage, a file storage and a world with both. *)
Definition ex_ms := MemStorage 0 "/m".
Definition ex_fs := FileStorage 1 "/d".
Definition ex_w := set_next 2 empty_world.
Definition ex_schema := str "struct S { x : u32; }".
Lemma ex_maps : maps_ok ex_w.
Proof. intros id p l H. discriminate. Qed.
Lemma ex_schema_ok st : schema_ok st ex_schema.
Proof.
  split; [reflexivity|]. split; [|split; [unfold isize_max; vm_compute; congruence|discriminate]].
  unfold ex_schema. cbn. repeat (constructor; [unfold is_byte; lia|]). constructor.
Qed.
Lemma ex_data_ok : data_ok [1; 2; 3].
Proof.
  split; [repeat (constructor; [unfold is_byte; lia|]); constructor|unfold isize_max; vm_compute; congruence].
Qed.
Lemma ex_base_ready : base_ready "/d" ex_w.
Proof. right. reflexivity. Qed.

(** C22: what was written reads back, in both builds and for both byte orders
    (the reader's may differ); the write succeeds when nothing is in the way. *)
Theorem C22_write_read b b' e e' st name schema data w w1 : maps_ok w -> fresh_name st name w ->
  schema_ok st schema -> data_ok data ->
  write b e st name schema data w = (Ret (Ok tt), w1) ->
  exists sl w2, read b' e' st name schema (set_faults [] w1) = (Ret (Ok sl), w2) /\
    sl_bytes sl = data /\ slice_ok sl.
Proof. intros. apply (write_then_read b b' e e' st name schema data w w1); auto. Qed.
Print Assumptions C22_write_read.

Theorem C22_write_succeeds b e st name schema data w : w_faults w = [] -> fresh_name st name w ->
  ready st name w -> ready st (schema_name name) w ->
  exists w1, write b e st name schema data w = (Ret (Ok tt), w1).
Proof.
  intros H (U1 & U2). apply write_progresses; auto; apply fresh_start; auto.
Qed.
Print Assumptions C22_write_succeeds.

Example C22_example_mem :
  fresh_name ex_ms "x" ex_w /\
  let (o, w1) := write Debug LE ex_ms "x" ex_schema [1; 2; 3] ex_w in
  o = Ret (Ok tt) /\
  bytes_at (cell_at ex_ms "x") w1 = Some [3; 0; 0; 0; 0; 0; 0; 0; 1; 2; 3; 0; 0; 0; 0; 0; 0; 0; 0] /\
  omap seen (fst (read Release BE ex_ms "x" ex_schema w1)) = Ret (Ok [1; 2; 3]).
Proof. vm_compute. repeat split. Qed.
Example C22_example_file :
  fresh_name ex_fs "x" ex_w /\ ready ex_fs "x" ex_w /\ ready ex_fs (schema_name "x") ex_w /\
  let (o, w1) := write Debug LE ex_fs "x" ex_schema [1; 2; 3] ex_w in
  o = Ret (Ok tt) /\ w_dirs w1 (key_of "/d") = true /\
  w_files w1 (true, ["d"; "x.schema"])%string = Some ex_schema /\
  omap seen (fst (read Release BE ex_fs "x" ex_schema w1)) = Ret (Ok [1; 2; 3]).
Proof.
  split; [vm_compute; repeat split|]. split; [|split; [|vm_compute; repeat split]];
  (split; [reflexivity|left; split; [repeat split; discriminate|apply ex_base_ready]]).
Qed.

(** C23: the decision of [read], for arbitrary stored bytes; [C23_ok_iff] says
    what the decision Ok amounts to.  The only outcome outside is the debug
    panic of C25. *)
Theorem C23_read_decides b e st name expected w c sc : w_faults w = [] -> maps_ok w ->
  finds st w name (Some c) -> finds st w (schema_name name) (Some sc) -> stored_ok c ->
  (b = Release \/ len c < 16 \/ header c + 16 < 2 ^ 64) ->
  exists r w', read b e st name expected w = (Ret r, w') /\ verdict name expected c sc (seen r).
Proof. exact (read_decides b e st name expected w c sc). Qed.
Print Assumptions C23_read_decides.

Theorem C23_ok_iff name expected c sc r : stored_ok c -> verdict name expected c sc r ->
  forall d, r = Ok d <-> (exists pad, c = framed d pad /\ len pad = 8) /\ utf8_ok sc = true /\ sc = expected.
Proof. exact (verdict_ok_iff name expected c sc r). Qed.
Print Assumptions C23_ok_iff.

(** The schema check accepts exactly UTF-8, and reports everything else. *)
Theorem C23_utf8_exact l : bytes_ok l -> utf8_ok l = true <-> utf8_text l.
Proof. exact (utf8_exact l). Qed.
Print Assumptions C23_utf8_exact.

Theorem C23_utf8_error name expected c sc r : bytes_ok sc -> verdict name expected c sc r ->
  (exists d pad, c = framed d pad /\ len pad = 8) -> (r = Er EUtf8 <-> ~ utf8_text sc).
Proof.
  intros Hb V (d & pad & E & L). rewrite <- (utf8_exact sc Hb).
  destruct V as [d' pad' _ _ U _|N|d' pad' _ _ U|d' pad' _ _ U _].
  - split; [discriminate|congruence].
  - exfalso. apply (N d pad E L).
  - rewrite U. split; [discriminate|reflexivity].
  - split; [discriminate|congruence].
Qed.
Print Assumptions C23_utf8_error.

(** Four characters of 1 to 4 bytes; a surrogate; an overlong slash. *)
Example C23_utf8_example :
  concat (map utf8_char [97; 233; 8364; 128512]) = [97; 195; 169; 226; 130; 172; 240; 159; 152; 128] /\
  utf8_ok [97; 195; 169; 226; 130; 172; 240; 159; 152; 128] = true /\
  utf8_ok [237; 160; 128] = false /\ utf8_ok [192; 175] = false /\ utf8_ok [244; 144; 128; 128] = false.
Proof. repeat split. Qed.

(** If the resource or its schema is missing, an I/O error carries its name. *)
Theorem C23_missing b e st name expected w x y : w_faults w = [] -> maps_ok w ->
  finds st w name x -> finds st w (schema_name name) y -> x = None \/ y = None ->
  exists k w', read b e st name expected w = (Ret (Er (EIo k name)), w').
Proof.
  intros Hf MO F1 F2 H. destruct (read_exact b e st name expected w x y Hf MO F1 F2) as (o & w' & R & _ & X).
  destruct x, y, H; try discriminate; destruct X as (k & ->); eauto.
Qed.
Print Assumptions C23_missing.

(** Ok is right even if system calls fail. *)
Theorem C23_ok_sound b e st name expected w sl w' : maps_ok w ->
  read b e st name expected w = (Ret (Ok sl), w') ->
  exists c sc, finds st w name (Some c) /\ finds st w (schema_name name) (Some sc) /\
    (stored_ok c -> verdict name expected c sc (Ok (sl_bytes sl)) /\ slice_ok sl /\
       len (sl_mem sl) = sl_len sl + 8).
Proof. exact (read_ok_sound b e st name expected w sl w'). Qed.
Print Assumptions C23_ok_sound.

(** A directory with one good and several bad resources. *)
Definition put (p : string) (c : list Z) (w : world) := set_files (kupd (key_of p) (Some c) (w_files w)) w.
Definition ex_disk : world :=
  put "/d/good" (framed [7; 8] [9; 9; 9; 9; 9; 9; 9; 9]) (put "/d/good.schema" [65]
 (put "/d/short" [1; 2; 3] (put "/d/short.schema" [65]
 (put "/d/size" (le_bytes 8 3 ++ [7; 8] ++ zeros 8) (put "/d/size.schema" [65]
 (put "/d/utf8" (resource_bytes []) (put "/d/utf8.schema" [65; 192; 128]
 (put "/d/other" (resource_bytes []) (put "/d/other.schema" [66]
 (put "/d/alone" (resource_bytes []) (put "/d/empty" [] (put "/d/empty.schema" [65] 
  ex_w)))))))))))).
Example C23_example : forall b, List.map (fun n => omap seen (fst (read b LE ex_fs n [65] ex_disk)))
    ["good"; "short"; "size"; "utf8"; "other"; "alone"; "empty"; "none"]%string =
  [Ret (Ok [7; 8]); Ret (Er EUnexpectedDataSize); Ret (Er EUnexpectedDataSize); Ret (Er EUtf8);
   Ret (Er (EWrongSignature "other")); Ret (Er (EIo KNotFound "alone")); Ret (Er (EIo KInvalidInput "empty"));
   Ret (Er (EIo KNotFound "none"))].
Proof. intros []; vm_compute; reflexivity. Qed.
Example C23_example_hyps :
  finds ex_fs ex_disk "size" (Some (le_bytes 8 3 ++ [7; 8] ++ zeros 8)) /\
  stored_ok (le_bytes 8 3 ++ [7; 8] ++ zeros 8) /\ header (le_bytes 8 3 ++ [7; 8] ++ zeros 8) + 16 < 2 ^ 64 /\
  finds ex_fs ex_disk (schema_name "size") (Some [65]).
Proof.
  split; [reflexivity|]. split; [split|]; [| |split; reflexivity].
  - repeat (constructor; [unfold is_byte; lia|]). constructor.
  - unfold isize_max. vm_compute. congruence.
Qed.

(** C24 *)
Theorem C24_truncated b e st name expected w d pad p q sc : w_faults w = [] -> maps_ok w ->
  data_ok d -> bytes_ok pad -> len pad = 8 -> framed d pad = p ++ q -> q <> [] ->
  finds st w name (Some p) -> finds st w (schema_name name) (Some sc) ->
  exists w', read b e st name expected w = (Ret (Er EUnexpectedDataSize), w').
Proof. exact (read_truncated b e st name expected w d pad p q sc). Qed.
Print Assumptions C24_truncated.

Theorem C24_extended b e st name expected w d pad q sc : w_faults w = [] -> maps_ok w ->
  len pad = 8 -> q <> [] -> stored_ok (framed d pad ++ q) ->
  finds st w name (Some (framed d pad ++ q)) -> finds st w (schema_name name) (Some sc) ->
  exists w', read b e st name expected w = (Ret (Er EUnexpectedDataSize), w').
Proof. exact (read_extended b e st name expected w d pad q sc). Qed.
Print Assumptions C24_extended.

Example C24_example :
  let cut n := put "/d/x" (firstn n (resource_bytes [5; 6])) (put "/d/x.schema" [65] ex_w) in
  let more := put "/d/x" (resource_bytes [5; 6] ++ [0]) (put "/d/x.schema" [65] ex_w) in
  finds ex_fs (cut 17%nat) "x" (Some (firstn 17 (resource_bytes [5; 6]))) /\
  finds ex_fs more "x" (Some (resource_bytes [5; 6] ++ [0])) /\
  (forall b, List.map (fun n => omap seen (fst (read b LE ex_fs "x" [65] (cut n)))) [1; 16; 17; 18]%nat =
     [Ret (Er EUnexpectedDataSize); Ret (Er EUnexpectedDataSize); Ret (Er EUnexpectedDataSize); Ret (Ok [5; 6])]) /\
  fst (read Debug LE ex_fs "x" [65] more) = Ret (Er EUnexpectedDataSize).
Proof. split; [reflexivity|]. split; [reflexivity|]. split; [intros []|]; vm_compute; reflexivity. Qed.

(** C25: a header within 16 of 2^64 makes a debug build panic ... *)
Theorem C25_bad_header_refuted e st name expected w c sc : w_faults w = [] -> maps_ok w ->
  finds st w name (Some c) -> finds st w (schema_name name) (Some sc) -> stored_ok c ->
  16 <= len c -> 2 ^ 64 <= header c + 16 ->
  exists w', read Debug e st name expected w = (Panic, w').
Proof. exact (read_header_panics e st name expected w c sc). Qed.
Print Assumptions C25_bad_header_refuted.

(** ... every other wrong header, and every wrong header in a release build, is reported. *)
Theorem C25_bad_header_partial b e st name expected w c sc : w_faults w = [] -> maps_ok w ->
  finds st w name (Some c) -> finds st w (schema_name name) (Some sc) -> stored_ok c ->
  len c < 16 \/ header c <> len c - 16 -> (b = Release \/ len c < 16 \/ header c + 16 < 2 ^ 64) ->
  exists w', read b e st name expected w = (Ret (Er EUnexpectedDataSize), w').
Proof. exact (read_bad_header b e st name expected w c sc). Qed.
Print Assumptions C25_bad_header_partial.

Example C25_example :
  let c := repeat 255 16 in let w := put "/d/x" c (put "/d/x.schema" [65] ex_w) in
  finds ex_fs w "x" (Some c) /\ finds ex_fs w (schema_name "x") (Some [65]) /\
  2 ^ 64 <= header c + 16 /\ header c <> len c - 16 /\
  fst (read Debug LE ex_fs "x" [65] w) = Panic /\
  fst (read Release LE ex_fs "x" [65] w) = Ret (Er EUnexpectedDataSize).
Proof. repeat split; vm_compute; congruence. Qed.

(** C26: for plain names that do not clash through ".schema" - in particular
    for different identifiers - in one storage, and for storages that are apart. *)
Theorem C26_write_isolated b e st st' n m schema data w o w' : valid_name n -> valid_name m ->
  (st = st' /\ unrelated n m \/ apart st st') ->
  write b e st n schema data w = (o, w') -> undisturbed st' m w w'.
Proof. exact (write_undisturbed b e st st' n m schema data w o w'). Qed.
Print Assumptions C26_write_isolated.

Theorem C26_identifiers n m : identifier n -> identifier m -> n <> m ->
  valid_name n /\ valid_name m /\ unrelated n m.
Proof.
  intros Hn Hm N. split; [apply identifier_valid; auto|]. split; [apply identifier_valid; auto|].
  apply identifiers_unrelated; auto.
Qed.
Print Assumptions C26_identifiers.

Example C26_example : identifier "vertices" /\ identifier "edges" /\
  apart (FileStorage 0 "/a") (FileStorage 1 "/a/b") /\
  (* names that do clash *)
  ~ unrelated "x" "x.schema" /\
  let w1 := snd (write Debug LE ex_fs "edges" [65] [1] ex_w) in
  let w2 := snd (write Debug LE ex_fs "vertices" [66] [2; 3] w1) in
  omap seen (fst (read Debug LE ex_fs "edges" [65] w2)) = Ret (Ok [1]).
Proof.
  split; [repeat split; discriminate|]. split; [repeat split; discriminate|]. split; [discriminate|].
  split; [intros (_ & _ & H); apply H; reflexivity|]. vm_compute. reflexivity.
Qed.

(** C27: file storage replaces ... *)
Theorem C27_rewrite_partial b e id base name schema data w w' :
  schema_ok (FileStorage id base) schema -> data_ok data ->
  write b e (FileStorage id base) name schema data w = (Ret (Ok tt), w') ->
  forall b' e', exists sl, fresh_read b' e' base name schema w' = Ret (Ok sl) /\ sl_bytes sl = data.
Proof. exact (file_rewrite b e id base name schema data w w'). Qed.
Print Assumptions C27_rewrite_partial.

(** ... memory storage appends, which always makes the resource unreadable ... *)
Theorem C27_rewrite_refuted b e id base name s1 s2 d1 d2 w w1 w2 : maps_ok w -> w_faults w = [] ->
  fresh_name (MemStorage id base) name w -> data_ok d1 -> data_ok d2 ->
  len d1 + len d2 + 32 <= isize_max ->
  write b e (MemStorage id base) name s1 d1 w = (Ret (Ok tt), w1) ->
  write b e (MemStorage id base) name s2 d2 w1 = (Ret (Ok tt), w2) ->
  forall b' e' expected, exists w3,
    read b' e' (MemStorage id base) name expected w2 = (Ret (Er EUnexpectedDataSize), w3).
Proof. exact (mem_rewrite b e id base name s1 s2 d1 d2 w w1 w2). Qed.
Print Assumptions C27_rewrite_refuted.

(** ... or, if it was read in between, keeps the first content. *)
Theorem C27_rewrite_stale_refuted b e id base name s1 s2 d1 d2 w w1 w2 w3 sl : maps_ok w -> (id < w_next w)%nat ->
  fresh_name (MemStorage id base) name w -> schema_ok (MemStorage id base) s1 -> data_ok d1 ->
  write b e (MemStorage id base) name s1 d1 w = (Ret (Ok tt), w1) ->
  read b e (MemStorage id base) name s1 w1 = (Ret (Ok sl), w2) ->
  write b e (MemStorage id base) name s2 d2 w2 = (Ret (Ok tt), w3) ->
  sl_bytes sl = d1 /\ read b e (MemStorage id base) name s1 w3 = (Ret (Ok sl), w3).
Proof. exact (mem_rewrite_after_read b e id base name s1 s2 d1 d2 w w1 w2 w3 sl). Qed.
Print Assumptions C27_rewrite_stale_refuted.

Example C27_example :
  let w1 := snd (write Debug LE ex_fs "x" [65] [1; 2] ex_w) in
  let (o, w2) := write Debug LE ex_fs "x" [65] [3] w1 in
  o = Ret (Ok tt) /\ omap seen (fresh_read Debug LE "/d" "x" [65] w2) = Ret (Ok [3]) /\
  let v1 := snd (write Debug LE ex_ms "x" [65] [1; 2] ex_w) in
  let (o, v2) := write Debug LE ex_ms "x" [65] [3] v1 in
  o = Ret (Ok tt) /\ fst (read Debug LE ex_ms "x" [65] v2) = Ret (Er EUnexpectedDataSize) /\
  let v3 := snd (write Debug LE ex_ms "x" [65] [3] (snd (read Debug LE ex_ms "x" [65] v1))) in
  omap seen (fst (read Debug LE ex_ms "x" [65] v3)) = Ret (Ok [1; 2]).
Proof. vm_compute. repeat split. Qed.

(** C28: for file storage a sub-directory is shared ... *)
Theorem C28_subdir_partial b e id base dir name schema data w st1 wa wb st2 wc :
  maps_ok w -> w_faults w = [] -> schema_ok (FileStorage id base) schema -> data_ok data ->
  subdir (FileStorage id base) dir w = (Ret st1, wa) ->
  write b e st1 name schema data wa = (Ret (Ok tt), wb) ->
  subdir (FileStorage id base) dir wb = (Ret st2, wc) ->
  exists sl wd, read b e st2 name schema wc = (Ret (Ok sl), wd) /\ sl_bytes sl = data.
Proof. exact (file_subdir b e id base dir name schema data w st1 wa wb st2 wc). Qed.
Print Assumptions C28_subdir_partial.

(** ... for memory storage every sub-directory is new and empty. *)
Theorem C28_subdir_refuted b e id base dir name w st1 wa :
  subdir (MemStorage id base) dir w = (Ret st1, wa) ->
  forall expected, read b e st1 name expected wa = (Ret (Er (EIo KNotFound name)), wa).
Proof. exact (mem_subdir b e id base dir name w st1 wa). Qed.
Print Assumptions C28_subdir_refuted.

Example C28_example :
  let run st := fst ((let! s1 := subdir st "sub" in
                      let! r := write Debug LE s1 "x" [65] [1; 2] in
                      let! s2 := subdir st "sub" in
                      let! d := read Debug LE s2 "x" [65] in mret (r, seen d)) ex_w) in
  run ex_fs = Ret (Ok tt, Ok [1; 2]) /\ run ex_ms = Ret (Ok tt, Er (EIo KNotFound "x")).
Proof. vm_compute. repeat split. Qed.

(** C29: after any program using storages. *)
Theorem C29_memory_stable A (m : M A) b e id base name expected w sl w1 o w2 :
  maps_ok w -> (id < w_next w)%nat -> api m ->
  read b e (MemStorage id base) name expected w = (Ret (Ok sl), w1) -> m w1 = (o, w2) ->
  read b e (MemStorage id base) name expected w2 = (Ret (Ok sl), w2).
Proof. exact (mem_checked_stable A m b e id base name expected w sl w1 o w2). Qed.
Print Assumptions C29_memory_stable.

Theorem C29_file_stable A (m : M A) b e id base name expected w sl w1 o w2 :
  let st := FileStorage id base in
  maps_ok w -> (id < w_next w)%nat -> api m ->
  read b e st name expected w = (Ret (Ok sl), w1) -> m w1 = (o, w2) ->
  (forall n, n = name \/ n = schema_name name -> w_files w2 (res_key st n) = w_files w1 (res_key st n)) ->
  exists w3, read b e st name expected (set_faults [] w2) = (Ret (Ok sl), w3).
Proof. exact (file_checked_stable A m b e id base name expected w sl w1 o w2). Qed.
Print Assumptions C29_file_stable.

Example C29_example :
  let m := (let! r := write Debug LE ex_ms "x" [66] [9] in
            let! r := create_output_stream ex_ms "x" in
            let! st := mem_new "/m" in write Debug LE st "x" [65] [8]) in
  api m /\
  let w1 := snd (write Debug LE ex_ms "x" [65] [1; 2] ex_w) in
  let w2 := snd (read Debug LE ex_ms "x" [65] w1) in
  let w3 := snd (m w2) in
  omap seen (fst (read Debug LE ex_ms "x" [65] w3)) = Ret (Ok [1; 2]).
Proof.
  split; [|vm_compute; reflexivity].
  apply api_bind; [apply api_write_res|intros _]. apply api_bind; [apply api_create|intros _].
  apply api_bind; [apply api_mem_new|intros st]. apply api_write_res.
Qed.

(** C30 *)
Theorem C30_create_twice b e st aname aschema w : w_faults w = [] ->
  present st (signature_name aname) w = true ->
  create_archive b e st aname aschema w = (Ret (Er (EIo KAlreadyExists (signature_name aname))), w).
Proof. exact (create_archive_exists b e st aname aschema w). Qed.
Print Assumptions C30_create_twice.

Theorem C30_create_new b e st aname aschema w : w_faults w = [] -> maps_ok w ->
  present st (signature_name aname) w = false ->
  fresh_name st (signature_name aname) w -> schema_ok st aschema ->
  ready st (signature_name aname) w -> ready st (schema_name (signature_name aname)) w ->
  exists w1, create_archive b e st aname aschema w = (Ret (Ok tt), w1) /\
    present st (signature_name aname) w1 = true /\
    exists sl w2, read b e st (signature_name aname) aschema w1 = (Ret (Ok sl), w2) /\ sl_bytes sl = [].
Proof. exact (create_archive_new b e st aname aschema w). Qed.
Print Assumptions C30_create_new.

Example C30_example : forall st, st = ex_ms \/ st = ex_fs ->
  let (o1, w1) := create_archive Debug LE st "Graph" ex_schema ex_w in
  let (o2, w2) := create_archive Debug LE st "Graph" ex_schema w1 in
  present st "Graph.archive" ex_w = false /\ o1 = Ret (Ok tt) /\ present st "Graph.archive" w1 = true /\
  o2 = Ret (Er (EIo KAlreadyExists "Graph.archive")).
Proof. intros st [-> | ->]; vm_compute; repeat split. Qed.

(** C56: a failing stat counts as "does not exist"; an existing signature is
    then replaced. *)
Theorem C56_failing_stat_refuted b e id base aname aschema w k : w_faults w = [FErr k] ->
  ready (FileStorage id base) (signature_name aname) w ->
  ready (FileStorage id base) (schema_name (signature_name aname)) w ->
  exists w', create_archive b e (FileStorage id base) aname aschema w = (Ret (Ok tt), w') /\
    w_files w' (res_key (FileStorage id base) (signature_name aname)) = Some (resource_bytes []) /\
    w_files w' (res_key (FileStorage id base) (schema_name (signature_name aname))) = Some aschema.
Proof.
  intros Hf R1 R2. set (st := FileStorage id base) in *. set (n := signature_name aname) in *.
  unfold create_archive, mtry, mbind. simpl exists_. unfold path_exists, mbind, syscall, next_fault. rewrite Hf.
  unfold mret. set (w1 := set_faults [] w). fold n.
  destruct (write_progresses b e st n aschema [] w1 eq_refl I I) as (w' & W); auto.
  rewrite W. exists w'. split; [reflexivity|].
  destruct (write_cases b e st n aschema [] w1 _ w' I I W) as (_ & [(_ & B1 & B2)|(_ & X & _)]); auto.
  destruct X as [(k' & ?)|?]; discriminate.
Qed.
Print Assumptions C56_failing_stat_refuted.

Example C56_example :
  let w1 := snd (create_archive Debug LE ex_fs "G" [65] ex_w) in
  let w2 := set_faults [FErr KOther] w1 in
  present ex_fs "G.archive" w2 = true /\
  let (o, w3) := create_archive Debug LE ex_fs "G" [66] w2 in
  o = Ret (Ok tt) /\ w_files w2 (res_key ex_fs "G.archive.schema") = Some [65] /\
  w_files w3 (res_key ex_fs "G.archive.schema") = Some [66].
Proof. vm_compute. repeat split. Qed.

(** C35 *)
Theorem C35_crash_in_write b e id base name schema data w o w' :
  write b e (FileStorage id base) name schema data w = (o, w') -> failed o -> data_ok data ->
  forall b' e' expected,
  let r := fresh_read b' e' base name expected w' in
  (exists d, r = Ret (Ok d) /\ sl_bytes d = data) \/
  (exists x, r = Ret (Er x)) \/
  r = fresh_read b' e' base name expected w.
Proof. exact (failed_write_fresh_read b e id base name schema data w o w'). Qed.
Print Assumptions C35_crash_in_write.

(** Crashes at various system calls: stat, create, header, data, schema. *)
Example C35_example :
  let old := snd (write Debug LE ex_fs "x" [65] [1; 2] ex_w) in
  let crash l := let (o, w') := write Debug LE ex_fs "x" [65] [3; 4; 5] (set_faults l old) in
                 (o, omap seen (fresh_read Debug LE "/d" "x" [65] w')) in
  crash [FCrash 0] = (Crash, Ret (Ok [1; 2])) /\
  crash [FOk; FOk; FCrash 3] = (Crash, Ret (Er EUnexpectedDataSize)) /\
  crash [FOk; FOk; FOk; FShort 2 KOther] = (Ret (Er KOther), Ret (Er EUnexpectedDataSize)) /\
  crash [FOk; FOk; FOk; FOk; FCrash 8] = (Crash, Ret (Ok [3; 4; 5])).
Proof. vm_compute. repeat split. Qed.

(** C48: any key works in memory storage ... *)
Theorem C48_nested_memory_partial b e id base name schema data w : w_faults w = [] -> maps_ok w ->
  fresh_name (MemStorage id base) name w -> schema_ok (MemStorage id base) schema -> data_ok data ->
  exists w1 sl w2, write b e (MemStorage id base) name schema data w = (Ret (Ok tt), w1) /\
    read b e (MemStorage id base) name schema w1 = (Ret (Ok sl), w2) /\ sl_bytes sl = data.
Proof.
  intros Hf MO F S D. destruct F as (U1 & U2) eqn:EF.
  destruct (write_progresses b e (MemStorage id base) name schema data w Hf) as (w1 & W); try exact I;
    try (apply fresh_start; auto).
  exists w1. destruct (write_then_read b b e e _ name schema data w w1 MO F S D W) as (_ & _ & sl & w2 & R & E & _).
  assert (Hf1 : w_faults w1 = []) by (apply (write_touches _ _ _ _ _ _ _ _ _ W); auto).
  replace (set_faults [] w1) with w1 in R by (destruct w1; simpl in *; subst; auto). eauto.
Qed.
Print Assumptions C48_nested_memory_partial.

(** ... and in file storage if the directories exist ([C22_write_succeeds],
    whose [ready] then holds) ... *)
Theorem C48_nested_file_partial id base name w :
  is_dir (key_of base) w = true -> is_dir (res_key (FileStorage id base) name) w = false ->
  is_dir (parent (res_key (FileStorage id base) name)) w = true ->
  ready (FileStorage id base) name w.
Proof. intros H1 H2 H3. split; auto. Qed.
Print Assumptions C48_nested_file_partial.

(** ... but not if they do not: only the directory of the storage is created. *)
Theorem C48_nested_refuted b e id base name schema data w : w_faults w = [] ->
  is_dir (key_of base) w = true -> is_dir (res_key (FileStorage id base) name) w = false ->
  is_dir (parent (res_key (FileStorage id base) name)) w = false ->
  exists k, write b e (FileStorage id base) name schema data w = (Ret (Er k), w) /\
    ((forall n, w_files w (fst (res_key (FileStorage id base) name), firstn n (snd (res_key (FileStorage id base) name))) = None) ->
     k = KNotFound).
Proof.
  intros Hf H1 H2 H3. eexists. split; [exact (file_nested_missing b e id base name schema data w Hf H1 H2 H3)|].
  intros N. destruct (file_on_path _ w) eqn:E; [|reflexivity]. apply existsb_exists in E as (n & _ & E).
  set (k := res_key (FileStorage id base) name) in *. cbn [parent fst snd] in E.
  assert (X : exists m, firstn n (removelast (snd k)) = firstn m (snd k)).
  { destruct (snd k) as [|x l] eqn:Ek using rev_ind; [exists 0%nat; rewrite !firstn_nil; reflexivity|].
    rewrite removelast_last. exists (Nat.min n (length l)). rewrite firstn_app.
    replace (Nat.min n (length l) - length l)%nat with 0%nat by lia. rewrite firstn_O, app_nil_r.
    rewrite <- (firstn_all l) at 1. rewrite firstn_firstn. reflexivity. }
  destruct X as [m X]. rewrite X, N in E. discriminate E.
Qed.
Print Assumptions C48_nested_refuted.

Example C48_example :
  let w1 := set_dirs (kupd (key_of "/d") true (fun _ => false)) ex_w in
  let w2 := set_dirs (kupd (key_of "/d/a") true (w_dirs w1)) w1 in
  fst (write Debug LE ex_fs "a/b" [65] [1] w1) = Ret (Er KNotFound) /\
  is_dir (parent (res_key ex_fs "a/b")) w1 = false /\ is_dir (key_of "/d") w1 = true /\
  ready ex_fs "a/b" w2 /\ ready ex_fs (schema_name "a/b") w2 /\
  (let (o, w3) := write Debug LE ex_fs "a/b" [65] [1] w2 in
   o = Ret (Ok tt) /\ omap seen (fst (read Debug LE ex_fs "a/b" [65] w3)) = Ret (Ok [1])) /\
  (let (o, w3) := write Debug LE ex_ms "a/b" [65] [1] ex_w in
   o = Ret (Ok tt) /\ omap seen (fst (read Debug LE ex_ms "a/b" [65] w3)) = Ret (Ok [1])).
Proof.
  split; [vm_compute; reflexivity|]. split; [reflexivity|]. split; [reflexivity|].
  split; [apply C48_nested_file_partial; reflexivity|]. split; [apply C48_nested_file_partial; reflexivity|].
  split; vm_compute; repeat split.
Qed.

(** C49 for [write]. *)
Theorem C49_write_format b e st name schema data w w1 : fresh_name st name w ->
  write b e st name schema data w = (Ret (Ok tt), w1) ->
  bytes_at (cell_at st name) w1 = Some (le_bytes 8 (len data) ++ data ++ zeros 8) /\
  bytes_at (cell_at st (name ++ ".schema")) w1 = Some schema.
Proof.
  intros (U1 & U2) W. destruct (fresh_start _ _ _ U1) as (A1 & S1). destruct (fresh_start _ _ _ U2) as (A2 & S2).
  destruct (write_cases b e st name schema data w _ w1 A1 A2 W) as (_ & [(_ & B1 & B2)|(_ & X & _)]).
  - rewrite S1 in B1. rewrite S2 in B2. auto.
  - destruct X as [(k & ?)|?]; discriminate.
Qed.
Print Assumptions C49_write_format.

(** C49 for [create_archive]: the signature is an empty resource. *)
Theorem C49_signature_format b e st aname aschema w w1 : fresh_name st (aname ++ ".archive") w ->
  create_archive b e st aname aschema w = (Ret (Ok tt), w1) ->
  bytes_at (cell_at st (aname ++ ".archive")) w1 = Some (zeros 16) /\
  bytes_at (cell_at st ((aname ++ ".archive") ++ ".schema")) w1 = Some aschema.
Proof.
  intros F C. unfold create_archive in C. apply bind_ret in C as (x & w2 & E & C).
  destruct x; [discriminate C|]. unfold mtry in C. apply bind_ret in C as (r & w3 & C & C').
  destruct r as [[]|k]; [|discriminate C']. injection C' as <-.
  apply C49_write_format in C; [exact C|].
  unfold exists_ in E. destruct st as [id base|id base]; [injection E as _ <-; exact F|].
  unfold path_exists in E. apply bind_ret in E as (r & w4 & E & E'). assert (w4 = w2) by (destruct r; injection E'; auto). subst w4.
  unfold syscall, next_fault in E. destruct (w_faults w) as [|f fs]; [injection E as _ <-; exact F|].
  assert (w2 = set_faults fs w) as -> by (destruct f; congruence). exact F.
Qed.
Print Assumptions C49_signature_format.
Example C49_signature_example : forall b e,
  let w := snd (create_archive b e ex_fs "A" [65] ex_w) in
  fst (create_archive b e ex_fs "A" [65] ex_w) = Ret (Ok tt) /\
  w_files w (key_of "/d/A.archive") = Some (zeros 16) /\ w_files w (key_of "/d/A.archive.schema") = Some [65].
Proof. intros b e. destruct b, e; vm_compute; repeat split. Qed.

(** C53: a crash between data and schema leaves new data under the old schema ... *)
Theorem C53_schema_of_data_refuted :
  exists w w', let st := FileStorage 0 "/d" in
  write Debug LE st "x" [66] [3; 4] w = (Crash, w') /\
  omap seen (fresh_read Debug LE "/d" "x" [65] w) = Ret (Ok [1; 2]) /\
  omap seen (fresh_read Debug LE "/d" "x" [65] w') = Ret (Ok [3; 4]).
Proof.
  set (w0 := snd (write Debug LE (FileStorage 0 "/d") "x" [65] [1; 2] empty_world)).
  set (w := set_faults [FOk; FOk; FOk; FOk; FOk; FCrash 0] w0).
  exists w. exists (snd (write Debug LE (FileStorage 0 "/d") "x" [66] [3; 4] w)).
  split; [|split; vm_compute; reflexivity].
  rewrite (surjective_pairing (write Debug LE (FileStorage 0 "/d") "x" [66] [3; 4] w)) at 1.
  f_equal.
Qed.
Print Assumptions C53_schema_of_data_refuted.

(** ... if there was no schema, the data can only be read with a beginning of
    the schema that was being written. *)
Theorem C53_schema_of_data_partial b e id base name schema data w o w' :
  write b e (FileStorage id base) name schema data w = (o, w') -> failed o -> data_ok data ->
  w_files w (res_key (FileStorage id base) (schema_name name)) = None ->
  forall b' e' expected sl, fresh_read b' e' base name expected w' = Ret (Ok sl) ->
  sl_bytes sl = data /\ expected <> [] /\ exists rest, schema = expected ++ rest.
Proof. exact (failed_write_schema b e id base name schema data w o w'). Qed.
Print Assumptions C53_schema_of_data_partial.

Example C53_example :
  let (o, w') := write Debug LE ex_fs "x" [65; 66; 67] [1] (set_faults [FOk; FOk; FOk; FOk; FOk; FOk; FOk; FOk; FCrash 2] ex_w) in
  o = Crash /\ omap seen (fresh_read Debug LE "/d" "x" [65; 66] w') = Ret (Ok [1]).
Proof. vm_compute. repeat split. Qed.

(** C54: rewriting a file that is mapped. *)
Theorem C54_rewrite_mapped_refuted b e id base name s1 s2 d1 d2 w w1 sl w2 w3 :
  let st := FileStorage id base in
  maps_ok w -> w_faults w = [] -> (id < w_next w)%nat -> fresh_name st name w ->
  schema_ok st s1 -> data_ok d1 -> data_ok d2 -> len d2 < len d1 ->
  write b e st name s1 d1 w = (Ret (Ok tt), w1) ->
  read b e st name s1 w1 = (Ret (Ok sl), w2) ->
  write b e st name s2 d2 w2 = (Ret (Ok tt), w3) ->
  forall expected, exists w4, read b e st name expected w3 = (UB, w4).
Proof. exact (file_rewrite_shorter b e id base name s1 s2 d1 d2 w w1 sl w2 w3). Qed.
Print Assumptions C54_rewrite_mapped_refuted.

Example C54_example :
  let w1 := snd (write Debug LE ex_fs "x" [65] [1; 2] ex_w) in
  let (o2, w2) := read Debug LE ex_fs "x" [65] w1 in
  let (o3, w3) := write Debug LE ex_fs "x" [65] [3] w2 in
  omap seen o2 = Ret (Ok [1; 2]) /\ o3 = Ret (Ok tt) /\ fst (read Debug LE ex_fs "x" [65] w3) = UB.
Proof. vm_compute. repeat split. Qed.

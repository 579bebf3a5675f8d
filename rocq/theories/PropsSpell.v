(** Property C81: a directory can be spelled in different ways.  [key_of] is the
    list of the components of a path and whether it is absolute. *)
From Verif Require Import Base BaseFacts Codec Structs Views Storage PathFacts StorageSpec StorageUse PropsStorage.
From Verif Require Import Writers MultiViews Archives ArchiveSpec PropsArchive SpellFacts Paths PathSpec.
Local Open Scope list_scope.
Local Open Scope Z_scope.

(** Spellings: doubled slashes, "." components, a slash at the end, "./" in front. *)
Theorem C81_spellings a b :
  key_of (a ++ "//" ++ b) = key_of (a ++ "/" ++ b) /\ key_of (a ++ "/./" ++ b) = key_of (a ++ "/" ++ b) /\
  (a <> ""%string -> key_of (a ++ "/") = key_of a /\ key_of (a ++ "/.") = key_of a) /\
  (is_absolute a = false -> key_of ("./" ++ a) = key_of a).
Proof. split; [apply key_double|]. split; [apply key_dot|]. split; [apply key_trailing|apply key_leading]. Qed.
Print Assumptions C81_spellings.

(** C81: with another spelling of its directory, a storage writes the same files
    with the same result, whatever fails.  (A directory that is spelled with a "." at
    the end exists: it would not be made, C102_dot_refuted.) *)
Theorem C81_write b e id id' q q' n sch d w : key_of q = key_of q' -> is_absolute n = false ->
  (ends_with_dot q \/ ends_with_dot q' -> is_dir (key_of q) w = true) ->
  write b e (FileStorage id q) n sch d w = write b e (FileStorage id' q') n sch d w /\
  create_archive b e (FileStorage id q) n sch w = create_archive b e (FileStorage id' q') n sch w /\
  write b e (MemStorage id q) n sch d w = write b e (MemStorage id q') n sch d w.
Proof. intros K H _. split; [apply write_spelling; auto|]. split; [apply create_archive_spelling; auto|apply mem_write_spelling; auto]. Qed.
Print Assumptions C81_write.

(** It reads the same data, or returns the same error ... *)
Theorem C81_read b e q q' n sch w : key_of q = key_of q' -> is_absolute n = false ->
  fresh_read b e q n sch w = fresh_read b e q' n sch w /\
  (forall id, read b e (MemStorage id q) n sch w = read b e (MemStorage id q') n sch w).
Proof. intros K H. split; [apply fresh_read_spelling; auto|intros id; apply mem_read_spelling; auto]. Qed.
Print Assumptions C81_read.

Theorem C81_round_trip b e id q q' n sch d w w' : key_of q = key_of q' -> is_absolute n = false ->
  schema_ok (FileStorage id q) sch -> data_ok d ->
  write b e (FileStorage id q) n sch d w = (Ret (Ok tt), w') ->
  forall b' e', exists sl, fresh_read b' e' q' n sch w' = Ret (Ok sl) /\ sl_bytes sl = d.
Proof.
  intros K H S D W b' e'. rewrite <- (fresh_read_spelling b' e' q q' n sch w' K H). exact (file_rewrite b e id q n sch d w w' S D W b' e').
Qed.
Print Assumptions C81_round_trip.

(** ... and opens the same archive, with all archives in it. *)
Theorem C81_open b e a q q' w : key_of q = key_of q' -> relative_names a ->
  fresh_open b e a q w = fresh_open b e a q' w.
Proof. exact (fresh_open_spelling b e a q q' w). Qed.
Print Assumptions C81_open.

Example C81_example :
  key_of "/./d//" = key_of "/d" /\ key_of "d/." = key_of "./d" /\ key_of "d" <> key_of "/d" /\ key_of "/d/e" <> key_of "/d" /\
  relative_names ex_Arch /\
  (let w := snd (write Debug LE (FileStorage 3 "//d/.") "x" [65] [1; 2] ex_w) in
   omap seen (fresh_read Debug BE "/./d/" "x" [65] w) = Ret (Ok [1; 2])) /\
  (let w := ex_optional (ex_required ex_w) in
   match fresh_open Debug LE ex_Arch "/d" w with Ret (Ok x) => fresh_open Debug LE ex_Arch "/.//d/" w = Ret (Ok x) | _ => False end).
Proof.
  split; [reflexivity|]. split; [reflexivity|]. split; [discriminate|]. split; [discriminate|].
  split; [repeat (split || constructor)|]. split; vm_compute; reflexivity.
Qed.

(** Functions of src/storage.rs for file storage as programs of system calls, so
    that several processes can be run at once: ResourceStorage::write,
    create_archive and the use of a ResourceHandle, an ExternalVector and a
    MultiVector.  ConcFacts.v proves that a
    program run alone does what the functions of Storage.v do, with all
    failures. *)
From Verif Require Import Base Codec Structs Views Storage Writers.
Local Open Scope list_scope.
Local Open Scope Z_scope.

(** A program that is done, or its next system call and what it does with the
    answer: stat, create_dir_all, File::create, seek to the start, and write_all
    of [d] at offset [p] of the open file [k]. *)
Inductive prog (A : Type) : Type :=
| Done (o : outcome A)
| Stat (k : key) (f : bool -> prog A)
| MkDirs (k : key) (f : result unit io_kind -> prog A)
| CreateFile (k : key) (f : result stream io_kind -> prog A)
| Seek (f : result unit io_kind -> prog A)
| PutAt (k : key) (p : Z) (d : list Z) (f : result unit io_kind * stream -> prog A).
Arguments Done {A} o.
Arguments Stat {A} k f.
Arguments MkDirs {A} k f.
Arguments CreateFile {A} k f.
Arguments Seek {A} f.
Arguments PutAt {A} k p d f.

(** Alone, with the failures of the world. *)
Fixpoint interp {A} (p : prog A) : M A :=
  match p with
  | Done o => lift o
  | Stat k f => let! x := path_exists k in interp (f x)
  | MkDirs k f => let! x := create_dir_all k in interp (f x)
  | CreateFile k f => let! x := file_create k in interp (f x)
  | Seek f => let! x := syscall (mret (Ok tt)) in interp (f x)
  | PutAt k q d f => let! x := write_all (SFile k q) d in interp (f x)
  end.

Fixpoint pbind {A B} (p : prog A) (g : A -> prog B) : prog B :=
  match p with
  | Done (Ret a) => g a
  | Done Panic => Done Panic
  | Done UB => Done UB
  | Done Crash => Done Crash
  | Stat k f => Stat k (fun x => pbind (f x) g)
  | MkDirs k f => MkDirs k (fun x => pbind (f x) g)
  | CreateFile k f => CreateFile k (fun x => pbind (f x) g)
  | Seek f => Seek (fun x => pbind (f x) g)
  | PutAt k q d f => PutAt k q d (fun x => pbind (f x) g)
  end.
(** The [?] operator, on results and on stream operations. *)
Definition ptry {A B E F} (conv : E -> F) (p : prog (result A E)) (g : A -> prog (result B F)) : prog (result B F) :=
  pbind p (fun r => match r with Ok a => g a | Er x => Done (Ret (Er (conv x))) end).
Definition pstry {B} (p : prog (result unit io_kind * stream)) (g : stream -> prog (result B io_kind))
    : prog (result B io_kind) :=
  pbind p (fun r => match r with (Ok _, s) => g s | (Er k, _) => Done (Ret (Er k)) end).

(** write_all of a file *)
Definition write_all_p (s : stream) (d : list Z) : prog (result unit io_kind * stream) :=
  match s with
  | SMem _ _ => Done UB
  | SFile k q => match d with [] => Done (Ret (Ok tt, s)) | _ => PutAt k q d (fun x => Done (Ret x)) end
  end.
(** seek(SeekFrom::Start(0)) of a file *)
Definition seek_start_p (s : stream) : prog (result unit io_kind * stream) :=
  match s with
  | SMem _ _ => Done UB
  | SFile k q => Seek (fun r => match r with Ok _ => Done (Ret (Ok tt, SFile k 0)) | Er x => Done (Ret (Er x, s)) end)
  end.

(** create_output_stream, filestorage.rs:81-88 *)
Definition create_output_stream_p (base name : string) : prog (result stream io_kind) :=
  Stat (key_of base) (fun x =>
  ptry (fun k => k) (if x then Done (Ret (Ok tt)) else MkDirs (key_of base) (fun r => Done (Ret r))) (fun _ =>
  CreateFile (key_of (path_join base name)) (fun r => Done (Ret r)))).

(** write_size, write_to_stream and write_schema, storage.rs:389-409 *)
Definition write_size_p (b : build) (e : endian) (v : Z) (s : stream) : prog (result unit io_kind * stream) :=
  pbind (Done (write_bytes b e U64 v (zeros 8) 0 64)) (fun buffer => write_all_p s buffer).
Definition write_to_stream_p (b : build) (e : endian) (d : list Z) (s : stream) : prog (result unit io_kind) :=
  pstry (write_size_p b e (len d) s) (fun s =>
  pstry (write_all_p s d) (fun s =>
  pstry (write_all_p s (zeros PADDING_SIZE)) (fun _ => Done (Ret (Ok tt))))).
Definition write_schema_p (schema : list Z) (s : stream) : prog (result unit io_kind) :=
  pstry (write_all_p s schema) (fun _ => Done (Ret (Ok tt))).

(** ResourceStorage::write, storage.rs:43-53 *)
Definition write_p (b : build) (e : endian) (base name : string) (schema data : list Z) : prog (result unit io_kind) :=
  ptry (fun k => k) (create_output_stream_p base name) (fun s =>
  ptry (fun k => k) (write_to_stream_p b e data s) (fun _ =>
  ptry (fun k => k) (create_output_stream_p base (schema_name name)) (fun s =>
  write_schema_p schema s))).

(** create_archive, storage.rs:200-220 *)
Definition create_archive_p (b : build) (e : endian) (base aname : string) (aschema : list Z) : prog (result unit rs_error) :=
  Stat (key_of (path_join base (signature_name aname))) (fun x =>
  if x then Done (Ret (Er (EIo KAlreadyExists (signature_name aname))))
  else ptry (fun k => EIo k (signature_name aname)) (write_p b e base (signature_name aname) aschema [])
         (fun _ => Done (Ret (Ok tt)))).

(** The life of a ResourceHandle: creation (storage.rs:146-154, 279-298), writes
    (storage.rs:306-317), and close (storage.rs:321-346) up to the point where it
    reads the resource again.  [n] is the size so far. *)
Fixpoint chunks_p (b : build) (cs : list (list Z)) (n : Z) (s : stream) : prog (result (Z * stream) io_kind) :=
  match cs with
  | [] => Done (Ret (Ok (n, s)))
  | c :: cs =>
      pstry (write_all_p s c) (fun s => pbind (Done (uadd b n (len c))) (fun n => chunks_p b cs n s))
  end.
Definition finish_p (b : build) (e : endian) (n : Z) (s : stream) : prog (result unit io_kind) :=
  pstry (write_all_p s (zeros PADDING_SIZE)) (fun s =>
  pstry (seek_start_p s) (fun s =>
  pstry (write_size_p b e n s) (fun _ => Done (Ret (Ok tt))))).
(** create_handle of Writers.v *)
Definition open_p (b : build) (e : endian) (base name : string) (schema : list Z) : prog (result stream io_kind) :=
  ptry (fun k => k) (create_output_stream_p base (schema_name name)) (fun s =>
  ptry (fun k => k) (write_schema_p schema s) (fun _ =>
  ptry (fun k => k) (create_output_stream_p base name) (fun s =>
  pstry (write_size_p b e 0 s) (fun s => Done (Ret (Ok s)))))).
Definition stream_p (b : build) (e : endian) (base name : string) (schema : list Z) (cs : list (list Z))
    : prog (result unit io_kind) :=
  ptry (fun k => k) (open_p b e base name schema) (fun s =>
  ptry (fun k => k) (chunks_p b cs 0 s) (fun r => finish_p b e (fst r) (snd r))).

(** The same in the monad of Storage.v; [handle_finish] is handle_close without
    its last step. *)
Fixpoint handle_writes (b : build) (cs : list (list Z)) (h : handle) : M (result handle io_kind) :=
  match cs with
  | [] => mret (Ok h)
  | c :: cs =>
      let! r := handle_write b h c in
      match r with
      | (Ok _, h) => handle_writes b cs h
      | (Er k, _) => mret (Er k)
      end
  end.
Definition handle_finish (b : build) (e : endian) (h : handle) : M (result unit io_kind) :=
  match h_stream h with
  | None => mret (Er KUnexpectedEof)
  | Some s => stry (write_padding s) (fun s => stry (seek_start s) (fun s => stry (write_size b e (h_size h) s) (fun _ => mret (Ok tt))))
  end.
Definition stream_resource (b : build) (e : endian) (st : storage) (name : string) (schema : list Z) (cs : list (list Z))
    : M (result unit io_kind) :=
  let? h := create_handle b e st name schema in
  let? h := handle_writes b cs h in
  handle_finish b e h.

(** * The life of an ExternalVector and of a MultiVector *)
(** As programs: the functions of Writers.v on handles of files. *)
Section Vectors.
Variables (b : build) (e : endian) (lim : Z).
Definition create_handle_p (base name : string) (schema : list Z) : prog (result handle io_kind) :=
  ptry (fun k => k) (open_p b e base name schema) (fun s => Done (Ret (Ok (mkHandle (Some s) 0 (FileStorage 0 base) name schema)))).
(** write of a ResourceHandle, storage.rs:306-317 *)
Definition handle_write_p (h : handle) (d : list Z) : prog (result unit io_kind * handle) :=
  match h_stream h with
  | None => Done (Ret (Er KUnexpectedEof, h))
  | Some s =>
      pbind (write_all_p s d) (fun r =>
      match r with
      | (Ok _, s) =>
          pbind (Done (uadd b (h_size h) (len d))) (fun n =>
          Done (Ret (Ok tt, mkHandle (Some s) n (h_storage h) (h_name h) (h_schema h))))
      | (Er k, s) =>
          Done (Ret (Er k, mkHandle (Some s) (h_size h) (h_storage h) (h_name h) (h_schema h)))
      end)
  end.
(** close of a ResourceHandle up to the reading, storage.rs:321-341 *)
Definition handle_finish_p (h : handle) : prog (result unit rs_error * handle) :=
  match h_stream h with
  | None => Done (Ret (Er (EIo KUnexpectedEof (h_name h)), h))
  | Some s =>
      pbind (finish_p b e (h_size h) s) (fun r =>
      match r with
      | Er k => Done (Ret (Er (EIo k (h_name h)), h))
      | Ok _ => Done (Ret (Ok tt, mkHandle None (h_size h) (h_storage h) (h_name h) (h_schema h)))
      end)
  end.
(** Dropping a handle, storage.rs:353-360 *)
Definition drop_p (h : handle) : prog unit := Done (if is_open h then Panic else Ret tt).

(** flush and grow, vector.rs:304-324 *)
Definition ev_flush_p (v : ext_vec) : prog (result unit io_kind * ext_vec) :=
  pbind (Done (usub b (len (ev_data v)) PADDING_SIZE)) (fun n =>
  pbind (Done (slice_range (whole (ev_data v)) 0 n)) (fun d =>
  pbind (handle_write_p (ev_handle v) (sl_bytes d)) (fun r =>
  match r with
  | (Ok _, h) => Done (Ret (Ok tt, mkEV (zeros PADDING_SIZE) (ev_len v) h))
  | (Er k, h) => Done (Ret (Er k, mkEV (ev_data v) (ev_len v) h))
  end))).
Definition ev_grow_p (s : sdesc) (v : ext_vec) : prog (result Z io_kind * ext_vec) :=
  pbind (if lim <? len (ev_data v) then ev_flush_p v else Done (Ret (Ok tt, v))) (fun r =>
  match r with
  | (Er k, v) => Done (Ret (Er k, v))
  | (Ok _, v) =>
      let old_size := len (ev_data v) in
      pbind (Done (uadd b old_size (s_size s))) (fun n =>
      pbind (Done (vec_resize (ev_data v) n)) (fun data =>
      pbind (Done (uadd b (ev_len v) 1)) (fun l =>
      pbind (Done (usub b old_size PADDING_SIZE)) (fun p =>
      pbind (Done (slice_from (whole data) p)) (fun _ =>
      Done (Ret (Ok p, mkEV data l (ev_handle v))))))))
  end).
Definition ev_set_p (s : sdesc) (sets : list (nat * Z)) (p : Z) (v : ext_vec) : prog ext_vec :=
  pbind (Done (through_handle b e s sets (ev_data v) p)) (fun data => Done (Ret (mkEV data (ev_len v) (ev_handle v)))).
(** close up to the reading, vector.rs:336-343 *)
Definition ev_finish_p (v : ext_vec) : prog (result unit rs_error) :=
  pbind (ev_flush_p v) (fun r =>
  match r with
  | (Er k, v) => pbind (drop_p (ev_handle v)) (fun _ => Done (Ret (Er (EIo k (h_name (ev_handle v))))))
  | (Ok _, v) => pbind (handle_finish_p (ev_handle v)) (fun r => pbind (drop_p (snd r)) (fun _ => Done (Ret (fst r))))
  end).
(** Elements are added with their setter calls; at the first failure the vector is
    dropped. *)
Fixpoint ev_fill_p (s : sdesc) (els : list (list (nat * Z))) (v : ext_vec) : prog (result ext_vec io_kind) :=
  match els with
  | [] => Done (Ret (Ok v))
  | sets :: els =>
      pbind (ev_grow_p s v) (fun r =>
      match r with
      | (Er k, v) => pbind (drop_p (ev_handle v)) (fun _ => Done (Ret (Er k)))
      | (Ok p, v) => pbind (ev_set_p s sets p v) (fun v => ev_fill_p s els v)
      end)
  end.
Definition vector_p (s : sdesc) (base name : string) (schema : list Z) (els : list (list (nat * Z))) : prog (result unit rs_error) :=
  ptry (fun k => EIo k name) (create_handle_p base name schema) (fun h =>
  ptry (fun k => EIo k name) (ev_fill_p s els (ev_new h)) (fun v => ev_finish_p v)).

(** flush, add_to_index and grow, multivector.rs:165-193 *)
Definition mv_flush_p (v : multi_vec) : prog (result unit io_kind * multi_vec) :=
  pbind (Done (usub b (len (mv_data v)) PADDING_SIZE)) (fun n =>
  pbind (Done (slice_range (whole (mv_data v)) 0 n)) (fun d =>
  pbind (handle_write_p (mv_handle v) (sl_bytes d)) (fun r =>
  match r with
  | (Ok _, h) =>
      pbind (Done (uadd b (mv_flushed v) n)) (fun f => Done (Ret (Ok tt, mkMV (mv_index v) (zeros PADDING_SIZE) h f)))
  | (Er k, h) => Done (Ret (Er k, mkMV (mv_index v) (mv_data v) h (mv_flushed v)))
  end))).
Definition mv_add_to_index_p (size bits : Z) (v : multi_vec) : prog (result unit io_kind * multi_vec) :=
  let is := index_struct size bits in
  pbind (ev_grow_p is (mv_index v)) (fun r =>
  match r with
  | (Er k, i) => Done (Ret (Er k, mkMV i (mv_data v) (mv_handle v) (mv_flushed v)))
  | (Ok p, i) =>
      pbind (Done (uadd b (mv_flushed v) (len (mv_data v)))) (fun x =>
      pbind (Done (usub b x PADDING_SIZE)) (fun x =>
      pbind (ev_set_p is [(0%nat, x)] p i) (fun i =>
      Done (Ret (Ok tt, mkMV i (mv_data v) (mv_handle v) (mv_flushed v))))))
  end).
Definition mv_grow_p (size bits : Z) (v : multi_vec) : prog (result unit io_kind * multi_vec) :=
  pbind (if lim <? len (mv_data v) then mv_flush_p v else Done (Ret (Ok tt, v))) (fun r =>
  match r with
  | (Er k, v) => Done (Ret (Er k, v))
  | (Ok _, v) => mv_add_to_index_p size bits v
  end).
Definition mv_add_p (ts : vdesc) (items : list (nat * list (nat * Z))) (v : multi_vec) : prog multi_vec :=
  pbind (Done (items_add b e ts items (mv_data v))) (fun data => Done (Ret (mkMV (mv_index v) data (mv_handle v) (mv_flushed v)))).
Definition mv_drop_p (v : multi_vec) : prog unit :=
  Done (if is_open (ev_handle (mv_index v)) || is_open (mv_handle v) then Panic else Ret tt).
(** close up to the reading of the data and without the reading of the index,
    multivector.rs:199-207 *)
Definition mv_finish_p (size bits : Z) (v : multi_vec) : prog (result unit rs_error) :=
  let io k := EIo k (h_name (mv_handle v)) in
  pbind (mv_add_to_index_p size bits v) (fun r =>
  match r with
  | (Er k, v) => pbind (mv_drop_p v) (fun _ => Done (Ret (Er (io k))))
  | (Ok _, v) =>
  pbind (mv_flush_p v) (fun r =>
  match r with
  | (Er k, v) => pbind (mv_drop_p v) (fun _ => Done (Ret (Er (io k))))
  | (Ok _, v) =>
  pbind (ev_finish_p (mv_index v)) (fun r =>
  match r with
  | Er x => pbind (drop_p (mv_handle v)) (fun _ => Done (Ret (Er x)))
  | Ok _ => pbind (handle_finish_p (mv_handle v)) (fun r => pbind (drop_p (snd r)) (fun _ => Done (Ret (fst r))))
  end) end) end).
Fixpoint mv_fill_p (size bits : Z) (ts : vdesc) (els : list (list (nat * list (nat * Z)))) (v : multi_vec) : prog (result multi_vec io_kind) :=
  match els with
  | [] => Done (Ret (Ok v))
  | items :: els =>
      pbind (mv_grow_p size bits v) (fun r =>
      match r with
      | (Er k, v) => pbind (mv_drop_p v) (fun _ => Done (Ret (Er k)))
      | (Ok _, v) => pbind (mv_add_p ts items v) (fun v => mv_fill_p size bits ts els v)
      end)
  end.
(** create_multi_vector, storage.rs:163-187 *)
Definition create_multi_p (base name : string) (schema : list Z) : prog (result multi_vec io_kind) :=
  ptry (fun k => k) (create_handle_p base (index_name name) (index_schema schema)) (fun i =>
  pbind (create_handle_p base name schema) (fun r =>
  match r with
  | Er k => pbind (drop_p i) (fun _ => Done (Ret (Er k)))
  | Ok h => Done (Ret (Ok (mv_new (ev_new i) h)))
  end)).
Definition multi_p (size bits : Z) (ts : vdesc) (base name : string) (schema : list Z) (els : list (list (nat * list (nat * Z))))
    : prog (result unit rs_error) :=
  ptry (fun k => EIo k name) (create_multi_p base name schema) (fun v =>
  ptry (fun k => EIo k name) (mv_fill_p size bits ts els v) (fun v => mv_finish_p size bits v)).

(** The same with the functions of Writers.v. *)
Definition finish_handle (h : handle) : M (result unit rs_error * handle) :=
  match h_stream h with
  | None => mret (Er (EIo KUnexpectedEof (h_name h)), h)
  | Some _ =>
      let! r := handle_finish b e h in
      match r with
      | Er k => mret (Er (EIo k (h_name h)), h)
      | Ok _ => mret (Ok tt, mkHandle None (h_size h) (h_storage h) (h_name h) (h_schema h))
      end
  end.
Definition ev_finish (v : ext_vec) : M (result unit rs_error) :=
  let! r := ev_flush b v in
  match r with
  | (Er k, v) =>
      let! _ := handle_drop false (ev_handle v) in
      mret (Er (EIo k (h_name (ev_handle v))))
  | (Ok _, v) =>
      let! r := finish_handle (ev_handle v) in
      let! _ := handle_drop false (snd r) in
      mret (fst r)
  end.
Fixpoint ev_fill (s : sdesc) (els : list (list (nat * Z))) (v : ext_vec) : M (result ext_vec io_kind) :=
  match els with
  | [] => mret (Ok v)
  | sets :: els =>
      let! r := ev_grow b lim s v in
      match r with
      | (Er k, v) => let! _ := handle_drop false (ev_handle v) in mret (Er k)
      | (Ok p, v) => let! v := ev_set b e s sets p v in ev_fill s els v
      end
  end.
Definition vector_session (s : sdesc) (st : storage) (name : string) (schema : list Z) (els : list (list (nat * Z))) : M (result unit rs_error) :=
  let? v :=(fun k => EIo k name) create_external_vector b e st name schema in
  let? v :=(fun k => EIo k name) ev_fill s els v in
  ev_finish v.
Definition mv_finish (size bits : Z) (v : multi_vec) : M (result unit rs_error) :=
  let io k := EIo k (h_name (mv_handle v)) in
  let! r := mv_add_to_index b e lim size bits v in
  match r with
  | (Er k, v) => let! _ := mv_drop v in mret (Er (io k))
  | (Ok _, v) =>
  let! r := mv_flush b v in
  match r with
  | (Er k, v) => let! _ := mv_drop v in mret (Er (io k))
  | (Ok _, v) =>
  let! r := ev_finish (mv_index v) in
  match r with
  | Er x => let! _ := handle_drop false (mv_handle v) in mret (Er x)
  | Ok _ =>
      let! r := finish_handle (mv_handle v) in
      let! _ := handle_drop false (snd r) in
      mret (fst r)
  end end end.
Fixpoint mv_fill (size bits : Z) (ts : vdesc) (els : list (list (nat * list (nat * Z)))) (v : multi_vec) : M (result multi_vec io_kind) :=
  match els with
  | [] => mret (Ok v)
  | items :: els =>
      let! r := mv_grow b e lim size bits v in
      match r with
      | (Er k, v) => let! _ := mv_drop v in mret (Er k)
      | (Ok _, v) => let! v := mv_add b e ts items v in mv_fill size bits ts els v
      end
  end.
Definition multi_session (size bits : Z) (ts : vdesc) (st : storage) (name : string) (schema : list Z)
    (els : list (list (nat * list (nat * Z)))) : M (result unit rs_error) :=
  let? v :=(fun k => EIo k name) create_multi_vector b e st name schema in
  let? v :=(fun k => EIo k name) mv_fill size bits ts els v in
  mv_finish size bits v.
End Vectors.

(** * What a process does: calls one after the other, until one fails *)
Inductive job :=
| JWrite (b : build) (e : endian) (base name : string) (schema data : list Z)
| JCreate (b : build) (e : endian) (base aname : string) (aschema : list Z)
| JStream (b : build) (e : endian) (base name : string) (schema : list Z) (cs : list (list Z))
| JVector (b : build) (e : endian) (lim : Z) (s : sdesc) (base name : string) (schema : list Z) (els : list (list (nat * Z)))
| JMulti (b : build) (e : endian) (lim size bits : Z) (ts : vdesc) (base name : string) (schema : list Z)
    (els : list (list (nat * list (nat * Z)))).
Definition job_p (j : job) : prog (result unit rs_error) :=
  match j with
  | JWrite b e base name schema data => ptry (fun k => EIo k name) (write_p b e base name schema data) (fun _ => Done (Ret (Ok tt)))
  | JCreate b e base aname aschema => create_archive_p b e base aname aschema
  | JStream b e base name schema cs => ptry (fun k => EIo k name) (stream_p b e base name schema cs) (fun _ => Done (Ret (Ok tt)))
  | JVector b e lim s base name schema els => vector_p b e lim s base name schema els
  | JMulti b e lim size bits ts base name schema els => multi_p b e lim size bits ts base name schema els
  end.
Fixpoint jobs_p (js : list job) : prog (result unit rs_error) :=
  match js with
  | [] => Done (Ret (Ok tt))
  | j :: js => ptry (fun x => x) (job_p j) (fun _ => jobs_p js)
  end.
Definition job_m (j : job) : M (result unit rs_error) :=
  match j with
  | JWrite b e base name schema data => let? _ :=(fun k => EIo k name) write b e (FileStorage 0 base) name schema data in mret (Ok tt)
  | JCreate b e base aname aschema => create_archive b e (FileStorage 0 base) aname aschema
  | JStream b e base name schema cs =>
      let? _ :=(fun k => EIo k name) stream_resource b e (FileStorage 0 base) name schema cs in mret (Ok tt)
  | JVector b e lim s base name schema els => vector_session b e lim s (FileStorage 0 base) name schema els
  | JMulti b e lim size bits ts base name schema els => multi_session b e lim size bits ts (FileStorage 0 base) name schema els
  end.
Fixpoint jobs_m (js : list job) : M (result unit rs_error) :=
  match js with
  | [] => mret (Ok tt)
  | j :: js => let? _ := job_m j in jobs_m js
  end.

(** * Several processes *)
(** One step of a process on the disk, without failures: a system call, or a
    part of a write; the operating system may do a write in any number of
    parts, with steps of other processes between.  Directories, too, may be made
    in parts: [step_mkdir] makes those up to the [n]-th part of the path. *)
Inductive pstep {A} : world -> prog A -> world -> prog A -> Prop :=
| step_stat w k f : pstep w (Stat k f) w (f (on_disk k w))
| step_mkdirs w k f r w' : create_dir_all k (set_faults [] w) = (Ret r, w') ->
    pstep w (MkDirs k f) w' (f r)
| step_mkdir w k f n : is_dir (fst k, firstn n (snd k)) w = false -> file_on_path (fst k, firstn n (snd k)) w = false ->
    pstep w (MkDirs k f) (set_dirs (fun x => w_dirs w x || is_prefix_of x (fst k, firstn n (snd k))) w) (MkDirs k f)
| step_create w k f r w' : file_create k (set_faults [] w) = (Ret r, w') ->
    pstep w (CreateFile k f) w' (f r)
| step_seek w f : pstep w (Seek f) w (f (Ok tt))
| step_put w k q d f j : (1 <= j <= List.length d)%nat ->
    pstep w (PutAt k q d f) (file_write k q (firstn j d) w) (PutAt k (q + Z.of_nat j) (skipn j d) f)
| step_put_done w k q f : pstep w (PutAt k q [] f) w (f (Ok tt, SFile k q)).

(** Processes side by side: in every step any one of them moves. *)
Inductive pool_step {A} : world -> list (prog A) -> world -> list (prog A) -> Prop :=
| pool_move w w' l1 p p' l2 : pstep w p w' p' -> pool_step w (l1 ++ p :: l2) w' (l1 ++ p' :: l2).
Inductive pool_run {A} : world -> list (prog A) -> world -> list (prog A) -> Prop :=
| run_stop w l : pool_run w l w l
| run_move w l w1 l1 w2 l2 : pool_step w l w1 l1 -> pool_run w1 l1 w2 l2 -> pool_run w l w2 l2.

(** One system call, for examples: a write is done in one part and ends in a
    step of its own. *)
Definition advance {A} (w : world) (p : prog A) : option (world * prog A) :=
  match p with
  | Done _ => None
  | Stat k f => Some (w, f (on_disk k w))
  | MkDirs k f => match create_dir_all k (set_faults [] w) with (Ret r, w') => Some (w', f r) | _ => None end
  | CreateFile k f => match file_create k (set_faults [] w) with (Ret r, w') => Some (w', f r) | _ => None end
  | Seek f => Some (w, f (Ok tt))
  | PutAt k q [] f => Some (w, f (Ok tt, SFile k q))
  | PutAt k q d f => Some (file_write k q d w, PutAt k (q + len d) [] f)
  end.
(** The processes named in the list move, one after the other. *)
Fixpoint schedule {A} (s : list nat) (w : world) (l : list (prog A)) : world * list (prog A) :=
  match s with
  | [] => (w, l)
  | i :: s =>
      match nth_error l i with
      | None => (w, l)
      | Some p => match advance w p with
                  | None => schedule s w l
                  | Some (w', p') => schedule s w' (firstn i l ++ p' :: skipn (S i) l)
                  end
      end
  end.

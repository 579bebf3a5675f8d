(** Model of src/storage.rs (trait ResourceStorage, create_archive, write
    helpers, ResourceHandle), src/memstorage.rs, src/filestorage.rs and
    src/error.rs over an explicit world with fault injection. *)
From Coq Require Export String Ascii.
From Verif Require Export Base Codec.
Export ListNotations.
Local Open Scope list_scope.
Local Open Scope Z_scope.

(** * Errors *)
(** std::io::ErrorKind, as far as the code and its callers distinguish them. *)
Inductive io_kind :=
| KNotFound | KAlreadyExists | KUnexpectedEof | KInvalidInput | KInvalidData | KOther.

Inductive result (A E : Type) := Ok (a : A) | Er (err : E).
Arguments Ok {A E} a.
Arguments Er {A E} err.

(** src/error.rs:11-39.  The text of an io::Error is not modelled; for the diff
    of WrongSignature (storage.rs:373-383) see Diff.v. *)
Inductive rs_error :=
| EIo (k : io_kind) (name : string)
| EUtf8
| EMissingSchema (name : string)
| EWrongSignature (name : string)
| EUnexpectedDataSize.

(** * Paths *)
(** Components of a path (std::path::Path::components): split at '/', empty
    and "." components dropped.  ".." is an ordinary component here; symbolic links
    are outside the model.  For names with "..", with "." or a slash at the end, and
    for a "." at the beginning of the keys of memory storages see Paths.v. *)
Definition slash : ascii := "/"%char.
Fixpoint split_slash (s : string) : list string :=
  match s with
  | EmptyString => [EmptyString]
  | String c r =>
      if Ascii.eqb c slash then EmptyString :: split_slash r
      else match split_slash r with
           | [] => [String c EmptyString]
           | x :: t => String c x :: t
           end
  end.
Definition real_component (s : string) : bool :=
  negb (String.eqb s "") && negb (String.eqb s ".").
Definition is_absolute (s : string) : bool :=
  match s with String c _ => Ascii.eqb c slash | EmptyString => false end.
(** A key identifies a file, directory or memory entry: absolute or relative to
    the working directory, and its components. *)
Definition key : Type := bool * list string.
Definition key_of (path : string) : key :=
  (is_absolute path, filter real_component (split_slash path)).

Definition ends_with_slash (s : string) : bool :=
  match s with
  | EmptyString => true
  | _ => match String.get (String.length s - 1) s with
         | Some c => Ascii.eqb c slash
         | None => false
         end
  end.
(** PathBuf::join *)
Definition path_join (base name : string) : string :=
  if is_absolute name then name
  else if ends_with_slash base then (base ++ name)%string
  else (base ++ "/" ++ name)%string.

Fixpoint comps_eqb (a b : list string) : bool :=
  match a, b with
  | [], [] => true
  | x :: a', y :: b' => String.eqb x y && comps_eqb a' b'
  | _, _ => false
  end.
Definition key_eqb (a b : key) : bool := Bool.eqb (fst a) (fst b) && comps_eqb (snd a) (snd b).

Definition kupd {V} (k : key) (v : V) (f : key -> V) : key -> V :=
  fun x => if key_eqb x k then v else f x.
Definition supd {V} (k : string) (v : V) (f : string -> V) : string -> V :=
  fun x => if String.eqb x k then v else f x.
Definition nupd {V} (k : nat) (v : V) (f : nat -> V) : nat -> V :=
  fun x => if Nat.eqb x k then v else f x.

(** Parent directory; the root and the working directory are their own parent. *)
Definition parent (k : key) : key := (fst k, removelast (snd k)).
(** All ancestors of a key including itself (not the root). *)
Definition is_prefix_of (p k : key) : bool :=
  Bool.eqb (fst p) (fst k) && comps_eqb (snd p) (firstn (List.length (snd p)) (snd k)).

(** * World *)
(** A fault decides what the next system call of file storage does: succeed,
    fail, write only [n] bytes and fail, or write [n] bytes and kill the
    process (system calls other than write are atomic). *)
Inductive fault := FOk | FErr (k : io_kind) | FShort (n : nat) (k : io_kind) | FCrash (n : nat).

Record world := mkWorld {
  w_files : key -> option (list Z);          (* regular files on disk *)
  w_dirs : key -> bool;                      (* directories on disk *)
  w_streams : nat -> key -> option (list Z * Z); (* memstorage.rs:17, with cursor *)
  w_resources : nat -> key -> option (list Z);   (* memstorage.rs:19 *)
  w_maps : nat -> string -> option Z;        (* filestorage.rs:16, length mapped *)
  w_next : nat;                              (* next storage identity *)
  w_faults : list fault }.

Definition set_files f w := mkWorld f (w_dirs w) (w_streams w) (w_resources w) (w_maps w) (w_next w) (w_faults w).
Definition set_dirs d w := mkWorld (w_files w) d (w_streams w) (w_resources w) (w_maps w) (w_next w) (w_faults w).
Definition set_streams s w := mkWorld (w_files w) (w_dirs w) s (w_resources w) (w_maps w) (w_next w) (w_faults w).
Definition set_resources r w := mkWorld (w_files w) (w_dirs w) (w_streams w) r (w_maps w) (w_next w) (w_faults w).
Definition set_maps m w := mkWorld (w_files w) (w_dirs w) (w_streams w) (w_resources w) m (w_next w) (w_faults w).
Definition set_next n w := mkWorld (w_files w) (w_dirs w) (w_streams w) (w_resources w) (w_maps w) n (w_faults w).
Definition set_faults l w := mkWorld (w_files w) (w_dirs w) (w_streams w) (w_resources w) (w_maps w) (w_next w) l.

(** Nothing on disk, no storages. *)
Definition empty_world : world :=
  mkWorld (fun _ => None) (fun _ => false) (fun _ _ => None) (fun _ _ => None) (fun _ _ => None) 0 [].

(** A new process: only the disk survives. *)
Definition restart (w : world) : world :=
  mkWorld (w_files w) (w_dirs w) (fun _ _ => None) (fun _ _ => None) (fun _ _ => None) 0 [].

(** * Monad: state and outcome; the state after a panic or crash is kept. *)
Definition M (A : Type) : Type := world -> outcome A * world.
Definition mret {A} (a : A) : M A := fun w => (Ret a, w).
Definition mbind {A B} (m : M A) (f : A -> M B) : M B := fun w =>
  match m w with
  | (Ret a, w1) => f a w1
  | (Panic, w1) => (Panic, w1)
  | (UB, w1) => (UB, w1)
  | (Crash, w1) => (Crash, w1)
  end.
Definition lift {A} (x : outcome A) : M A := fun w => (x, w).
Definition mpanic {A} : M A := fun w => (Panic, w).
Notation "'let!' x := m 'in' k" := (mbind m (fun x => k))
  (at level 200, x pattern, right associativity).
(** The [?] operator. *)
Definition mtry {A B E F} (conv : E -> F) (m : M (result A E)) (f : A -> M (result B F))
    : M (result B F) :=
  mbind m (fun r => match r with Ok a => f a | Er err => mret (Er (conv err)) end).
Notation "'let?' x := m 'in' k" := (mtry (fun err => err) m (fun x => k))
  (at level 200, x pattern, right associativity).
Notation "'let?' x :=( conv ) m 'in' k" := (mtry conv m (fun x => k))
  (at level 200, x pattern, right associativity).

Definition next_fault (w : world) : fault * world :=
  match w_faults w with
  | [] => (FOk, w)
  | f :: r => (f, set_faults r w)
  end.

(** A system call without partial effects. *)
Definition syscall {A} (act : M (result A io_kind)) : M (result A io_kind) := fun w =>
  match next_fault w with
  | (FOk, w1) => act w1
  | (FErr k, w1) | (FShort _ k, w1) => (Ret (Er k), w1)
  | (FCrash _, w1) => (Crash, w1)
  end.

(** * Streams *)
(** [Rc<RefCell<Stream>>]: an entry of a memory storage (the cursor is shared
    and lives in the world), or an open file with its own offset. *)
Inductive stream := SMem (id : nat) (k : key) | SFile (k : key) (pos : Z).

(** Writing [d] at position [p] of a file or Vec: overwrite and extend; a gap
    is filled with zeros. *)
Definition splice (p : Z) (d c : list Z) : list Z :=
  firstn (Z.to_nat p) c ++ zeros (p - len c) ++ d ++ skipn (Z.to_nat p + List.length d) c.

Definition file_content (k : key) (w : world) : list Z :=
  match w_files w k with Some c => c | None => [] end.
Definition file_write (k : key) (p : Z) (d : list Z) (w : world) : world :=
  set_files (kupd k (Some (splice p d (file_content k w))) (w_files w)) w.

(** Write::write_all of File and of Cursor<Vec<u8>>; no system call for an
    empty buffer.  Also returns the stream with its new offset. *)
Definition write_all (s : stream) (d : list Z) : M (result unit io_kind * stream) :=
  match s with
  | SMem id k => fun w =>
      match w_streams w id k with
      | Some (c, p) =>
          (Ret (Ok tt, s),
           set_streams (nupd id (kupd k (Some (splice p d c, p + len d)) (w_streams w id)) (w_streams w)) w)
      | None => (UB, w)   (* not reachable: entries are never removed *)
      end
  | SFile k p => fun w =>
      match d with
      | [] => (Ret (Ok tt, s), w)
      | _ =>
          match next_fault w with
          | (FOk, w1) => (Ret (Ok tt, SFile k (p + len d)), file_write k p d w1)
          | (FErr kd, w1) => (Ret (Er kd, s), w1)
          | (FShort n kd, w1) =>
              let d' := firstn n d in
              (Ret (Er kd, SFile k (p + len d')), file_write k p d' w1)
          | (FCrash n, w1) => (Crash, file_write k p (firstn n d) w1)
          end
      end
  end.

(** Seek::seek(SeekFrom::Start(0)) *)
Definition seek_start (s : stream) : M (result unit io_kind * stream) :=
  match s with
  | SMem id k => fun w =>
      match w_streams w id k with
      | Some (c, _) =>
          (Ret (Ok tt, s), set_streams (nupd id (kupd k (Some (c, 0)) (w_streams w id)) (w_streams w)) w)
      | None => (UB, w)
      end
  | SFile k p =>
      let! r := syscall (mret (Ok tt)) in
      match r with
      | Ok _ => mret (Ok tt, SFile k 0)
      | Er kd => mret (Er kd, s)
      end
  end.

(** * Storages *)
(** MemoryResourceStorage (memstorage.rs:35-38) and FileResourceStorage
    (filestorage.rs:38-41); the identity names the Rc-shared inner storage. *)
Inductive storage := MemStorage (id : nat) (base : string) | FileStorage (id : nat) (base : string).
Definition st_base (st : storage) : string :=
  match st with MemStorage _ p | FileStorage _ p => p end.
Definition st_id (st : storage) : nat :=
  match st with MemStorage id _ | FileStorage id _ => id end.
Definition is_file (st : storage) : bool :=
  match st with FileStorage _ _ => true | MemStorage _ _ => false end.
(** [self.path.join(resource_name)] *)
Definition res_path (st : storage) (name : string) : string := path_join (st_base st) name.
Definition res_key (st : storage) (name : string) : key := key_of (res_path st name).

(** MemoryResourceStorage::new, memstorage.rs:46-51 *)
Definition mem_new (base : string) : M storage := fun w =>
  let id := w_next w in
  (Ret (MemStorage id base),
   set_next (S id) (set_resources (nupd id (fun _ => None) (w_resources w))
     (set_streams (nupd id (fun _ => None) (w_streams w)) w))).
(** FileResourceStorage::new, filestorage.rs:46-51 *)
Definition file_new (base : string) : M storage := fun w =>
  let id := w_next w in
  (Ret (FileStorage id base), set_next (S id) (set_maps (nupd id (fun _ => None) (w_maps w)) w)).

(** subdir, memstorage.rs:57-59 and filestorage.rs:55-57 *)
Definition subdir (st : storage) (dir : string) : M storage :=
  match st with
  | MemStorage _ p => mem_new (path_join p dir)
  | FileStorage _ p => file_new (path_join p dir)
  end.

(** Path::exists for a path on disk *)
Definition on_disk (k : key) (w : world) : bool :=
  match w_files w k with Some _ => true | None => w_dirs w k || Nat.eqb (List.length (snd k)) 0 end.
Definition is_dir (k : key) (w : world) : bool :=
  w_dirs w k || Nat.eqb (List.length (snd k)) 0.
(** A failing stat counts as "does not exist". *)
Definition path_exists (k : key) : M bool :=
  let! r := syscall (fun w => (Ret (Ok (on_disk k w)), w)) in
  match r with Ok x => mret x | Er _ => mret false end.

(** exists, memstorage.rs:61-65 and filestorage.rs:59-61 *)
Definition exists_ (st : storage) (name : string) : M bool :=
  match st with
  | MemStorage id _ => fun w =>
      let k := res_key st name in
      (Ret (match w_resources w id k with Some _ => true | None => false end
            || match w_streams w id k with Some _ => true | None => false end), w)
  | FileStorage _ _ => path_exists (res_key st name)
  end.

(** The bytes seen through a mapping of [l] bytes of file [k].  Touching pages
    behind the end of a file that was truncated raises SIGBUS; any truncation
    below the mapped length is treated as undefined. *)
Definition mapped (k : key) (l : Z) (w : world) : outcome slice :=
  let c := file_content k w in
  if l <=? len c then Ret (mkSlice (firstn (Z.to_nat l) c) l) else UB.

(** MemoryMappedFileStorage::read, filestorage.rs:20-31; memmap 0.6 refuses to
    map an empty file (InvalidInput). *)
Definition mmap_read (id : nat) (path : string) : M (result slice io_kind) := fun w =>
  let k := key_of path in
  match w_maps w id path with
  | Some l => (omap Ok (mapped k l w), w)
  | None =>
      syscall (fun w =>
        match w_files w k with
        | None => (Ret (Er (if is_dir k w then KOther else KNotFound)), w)
        | Some c =>
            if len c =? 0 then (Ret (Er KInvalidInput), w)
            else
              let w' := set_maps (nupd id (supd path (Some (len c)) (w_maps w id)) (w_maps w)) w in
              (omap Ok (mapped k (len c) w'), w')
        end) w
  end.

(** read_resource, memstorage.rs:67-95 and filestorage.rs:63-79 *)
Definition read_resource (st : storage) (name : string) : M (result slice io_kind) :=
  match st with
  | MemStorage id _ => fun w =>
      let k := res_key st name in
      match w_resources w id k with
      | Some c => (Ret (Ok (whole c)), w)
      | None =>
          match w_streams w id k with
          | Some (c, _) =>
              (Ret (Ok (whole c)),
               set_resources (nupd id (kupd k (Some c) (w_resources w id)) (w_resources w)) w)
          | None => (Ret (Er KNotFound), w)
          end
      end
  | FileStorage id _ =>
      let! x := path_exists (res_key st name) in
      if x then mmap_read id (res_path st name) else mret (Er KNotFound)
  end.

(** A file on the way to [k] (ENOTDIR). *)
Definition file_on_path (k : key) (w : world) : bool :=
  existsb (fun n => match w_files w (fst k, firstn n (snd k)) with Some _ => true | None => false end)
    (seq 0 (S (List.length (snd k)))).
(** The first [n] directories on the way to [k]. *)
Definition make_dirs (k : key) (n : nat) (w : world) : world :=
  set_dirs (fun x => w_dirs w x || is_prefix_of x (fst k, firstn n (snd k))) w.
(** fs::create_dir_all: all missing directories up to [k], from the top.  If it fails
    or the process is killed, some of them exist.  (One call after the other: Paths.v.) *)
Definition create_dir_all (k : key) : M (result unit io_kind) := fun w =>
  let some n w := if file_on_path k w then w else make_dirs k n w in
  match next_fault w with
  | (FOk, w1) =>
      if file_on_path k w1 then (Ret (Er KOther), w1)
      else (Ret (Ok tt), set_dirs (fun x => w_dirs w1 x || is_prefix_of x k) w1)
  | (FErr kd, w1) => (Ret (Er kd), w1)
  | (FShort n kd, w1) => (Ret (Er kd), some n w1)
  | (FCrash n, w1) => (Crash, some n w1)
  end.

(** File::create: truncates or creates; the parent has to be a directory. *)
Definition file_create (k : key) : M (result stream io_kind) := syscall (fun w =>
  if is_dir k w then (Ret (Er KOther), w)
  else if is_dir (parent k) w
  then (Ret (Ok (SFile k 0)), set_files (kupd k (Some []) (w_files w)) w)
  else (Ret (Er (if file_on_path (parent k) w then KOther else KNotFound)), w)).

(** create_output_stream, memstorage.rs:97-107 (an existing stream is returned
    as it is) and filestorage.rs:81-88 *)
Definition create_output_stream (st : storage) (name : string) : M (result stream io_kind) :=
  match st with
  | MemStorage id _ => fun w =>
      let k := res_key st name in
      (Ret (Ok (SMem id k)),
       match w_streams w id k with
       | Some _ => w
       | None => set_streams (nupd id (kupd k (Some ([], 0)) (w_streams w id)) (w_streams w)) w
       end)
  | FileStorage _ base =>
      let! x := path_exists (key_of base) in
      let? _ := (if x then mret (Ok tt) else create_dir_all (key_of base)) in
      file_create (res_key st name)
  end.

(** UTF-8 validation, core::str::from_utf8. *)
Definition cont (x : Z) : bool := (128 <=? x) && (x <? 192).
Fixpoint utf8_ok (l : list Z) : bool :=
  match l with
  | [] => true
  | a :: r =>
      if a <? 128 then utf8_ok r
      else if (194 <=? a) && (a <? 224) then
        match r with b :: r => cont b && utf8_ok r | _ => false end
      else if (224 <=? a) && (a <? 240) then
        match r with
        | b :: c :: r =>
            (if a =? 224 then (160 <=? b) && (b <? 192)
             else if a =? 237 then (128 <=? b) && (b <? 160) else cont b) && cont c && utf8_ok r
        | _ => false
        end
      else if (240 <=? a) && (a <? 245) then
        match r with
        | b :: c :: d :: r =>
            (if a =? 240 then (144 <=? b) && (b <? 192)
             else if a =? 244 then (128 <=? b) && (b <? 144) else cont b)
            && cont c && cont d && utf8_ok r
        | _ => false
        end
      else false
  end.

Fixpoint bytes_eqb (a b : list Z) : bool :=
  match a, b with
  | [], [] => true
  | x :: a, y :: b => (x =? y) && bytes_eqb a b
  | _, _ => false
  end.

(** Bytes of a (ASCII) string literal; the bytes of a &str. *)
Fixpoint str (s : string) : list Z :=
  match s with
  | EmptyString => []
  | String c r => Z.of_N (N_of_ascii c) :: str r
  end.

Section Env.
Variables (b : build) (e : endian).

(** write_size, storage.rs:399-404 *)
Definition write_size (v : Z) (s : stream) : M (result unit io_kind * stream) :=
  let! buffer := lift (write_bytes b e U64 v (zeros 8) 0 64) in
  write_all s buffer.
(** write_padding, storage.rs:406-409 *)
Definition write_padding (s : stream) : M (result unit io_kind * stream) :=
  write_all s (zeros PADDING_SIZE).

(** [?] on a stream operation: continue with the stream, or return the error. *)
Definition stry {B} (m : M (result unit io_kind * stream))
    (f : stream -> M (result B io_kind)) : M (result B io_kind) :=
  let! r := m in
  match r with
  | (Ok _, s) => f s
  | (Er k, _) => mret (Er k)
  end.

(** write_to_stream, storage.rs:389-393 *)
Definition write_to_stream (d : list Z) (s : stream) : M (result unit io_kind) :=
  stry (write_size (len d) s) (fun s =>
  stry (write_all s d) (fun s =>
  stry (write_padding s) (fun s => mret (Ok tt)))).
(** write_schema, storage.rs:395-397 *)
Definition write_schema (schema : list Z) (s : stream) : M (result unit io_kind) :=
  stry (write_all s schema) (fun s => mret (Ok tt)).

(** [format!("{}.schema", resource_name)] *)
Definition schema_name (name : string) : string := (name ++ ".schema")%string.

(** ResourceStorage::write, storage.rs:43-53 *)
Definition write (st : storage) (name : string) (schema : list Z) (data : list Z)
    : M (result unit io_kind) :=
  let? s := create_output_stream st name in
  let? _ := write_to_stream data s in
  let? s := create_output_stream st (schema_name name) in
  write_schema schema s.

(** The checks of read_and_check_schema on the two resources,
    storage.rs:106-125 *)
Definition check_resource (name : string) (expected : list Z) (data schema : slice)
    : outcome (result slice rs_error) :=
  if sl_len data <? SIZE_OF_SIZE_TYPE + PADDING_SIZE then Ret (Er EUnexpectedDataSize)
  else
    size <- read_bytes b e U64 (sl_mem data) 0 64 ;;
    a <- uadd b size SIZE_OF_SIZE_TYPE ;;
    total <- uadd b a PADDING_SIZE ;;
    if negb (total =? sl_len data) then Ret (Er EUnexpectedDataSize)
    else if negb (utf8_ok (sl_bytes schema)) then Ret (Er EUtf8)
    else if negb (bytes_eqb (sl_bytes schema) expected) then Ret (Er (EWrongSignature name))
    else
      d <- slice_from data SIZE_OF_SIZE_TYPE ;;
      d <- slice_range d 0 size ;;
      Ret (Ok d).

(** read / read_and_check_schema, storage.rs:34-36 and 92-126.  Errors of both
    reads carry the name of the resource. *)
Definition read (st : storage) (name : string) (expected : list Z) : M (result slice rs_error) :=
  let? data :=(fun k => EIo k name) read_resource st name in
  let? schema :=(fun k => EIo k name) read_resource st (schema_name name) in
  lift (check_resource name expected data schema).

(** create_archive, storage.rs:200-220; [aname] is T::NAME *)
Definition signature_name (aname : string) : string := (aname ++ ".archive")%string.
Definition create_archive (st : storage) (aname : string) (aschema : list Z)
    : M (result unit rs_error) :=
  let! x := exists_ st (signature_name aname) in
  if x then mret (Er (EIo KAlreadyExists (signature_name aname)))
  else
    let? _ :=(fun k => EIo k (signature_name aname)) write st (signature_name aname) aschema [] in
    mret (Ok tt).

(** * ResourceHandle, storage.rs:264-270 *)
Record handle := mkHandle {
  h_stream : option stream;
  h_size : Z;
  h_storage : storage;
  h_name : string;
  h_schema : list Z }.

(** try_new, storage.rs:279-298 *)
Definition handle_try_new (st : storage) (name : string) (schema : list Z) (s : stream)
    : M (result handle io_kind) :=
  stry (write_size 0 s) (fun s => mret (Ok (mkHandle (Some s) 0 st name schema))).

(** is_open, storage.rs:301-303 *)
Definition is_open (h : handle) : bool :=
  match h_stream h with Some _ => true | None => false end.

(** write, storage.rs:306-317 *)
Definition handle_write (h : handle) (d : list Z) : M (result unit io_kind * handle) :=
  match h_stream h with
  | None => mret (Er KUnexpectedEof, h)
  | Some s =>
      let! r := write_all s d in
      match r with
      | (Ok _, s) =>
          let! n := lift (uadd b (h_size h) (len d)) in
          mret (Ok tt, mkHandle (Some s) n (h_storage h) (h_name h) (h_schema h))
      | (Er k, s) =>
          mret (Er k, mkHandle (Some s) (h_size h) (h_storage h) (h_name h) (h_schema h))
      end
  end.

(** close, storage.rs:321-346 *)
Definition handle_close (h : handle) : M (result slice rs_error * handle) :=
  let io k := EIo k (h_name h) in
  let reopen s := mkHandle (Some s) (h_size h) (h_storage h) (h_name h) (h_schema h) in
  match h_stream h with
  | None => mret (Er (io KUnexpectedEof), h)
  | Some s =>
      let! r := write_padding s in
      match r with
      | (Er k, s) => mret (Er (io k), reopen s)
      | (Ok _, s) =>
      let! r := seek_start s in
      match r with
      | (Er k, s) => mret (Er (io k), reopen s)
      | (Ok _, s) =>
      let! r := write_size (h_size h) s in
      match r with
      | (Er k, s) => mret (Er (io k), reopen s)
      | (Ok _, s) =>
          let h' := mkHandle None (h_size h) (h_storage h) (h_name h) (h_schema h) in
          let! d := read (h_storage h) (h_name h) (h_schema h) in
          mret (d, h')
      end end end
  end.

(** Drop, storage.rs:353-360: panics if the handle is open; nothing happens
    while already panicking. *)
Definition handle_drop (panicking : bool) (h : handle) : M unit :=
  if negb panicking && is_open h then mpanic else mret tt.
End Env.

(** Vocabulary for the storage properties. *)
From Verif Require Import Base Codec Storage PathFacts.
Local Open Scope list_scope.
Local Open Scope Z_scope.

(** A place where bytes are kept: an entry of a memory storage or a file. *)
Inductive cell := CMem (id : nat) (k : key) | CFile (k : key).

(** The cell of a resource. *)
Definition cell_at (st : storage) (name : string) : cell :=
  match st with
  | MemStorage id _ => CMem id (res_key st name)
  | FileStorage _ _ => CFile (res_key st name)
  end.

(** The bytes written to a cell so far (None: never created). *)
Definition bytes_at (c : cell) (w : world) : option (list Z) :=
  match c with
  | CMem id k => option_map fst (w_streams w id k)
  | CFile k => w_files w k
  end.

(** What a reader of [st] finds under [name] when no system call fails: bytes,
    or nothing.  Memory storage keeps the bytes of the first read.  File
    storage keeps the mapping of the first read; a file that was cut below its
    mapping is excluded; an empty file cannot be mapped. *)
Definition finds (st : storage) (w : world) (name : string) (x : option (list Z)) : Prop :=
  match st with
  | MemStorage id _ =>
      x = match w_resources w id (res_key st name) with
          | Some c => Some c
          | None => bytes_at (cell_at st name) w
          end
  | FileStorage id _ =>
      match w_maps w id (res_path st name) with
      | Some l => exists c, w_files w (res_key st name) = Some c /\ l <= len c /\
                            x = Some (firstn (Z.to_nat l) c)
      | None => x = match w_files w (res_key st name) with
                    | Some [] => None
                    | y => y
                    end
      end
  end.

(** A stored resource: little-endian length, data, eight bytes. *)
Definition framed (d : list Z) (pad : list Z) : list Z := le_bytes 8 (len d) ++ d ++ pad.
(** ... as written. *)
Definition resource_bytes (d : list Z) : list Z := framed d (zeros 8).

(** The decision of [read] about the stored bytes [c] of resource [name] and
    the stored bytes [sc] of its schema. *)
Inductive verdict (name : string) (expected c sc : list Z) : result (list Z) rs_error -> Prop :=
| VOk d pad : c = framed d pad -> len pad = 8 -> utf8_ok sc = true -> sc = expected ->
    verdict name expected c sc (Ok d)
| VSize : (forall d pad, c = framed d pad -> len pad <> 8) ->
    verdict name expected c sc (Er EUnexpectedDataSize)
| VUtf8 d pad : c = framed d pad -> len pad = 8 -> utf8_ok sc = false ->
    verdict name expected c sc (Er EUtf8)
| VSchema d pad : c = framed d pad -> len pad = 8 -> utf8_ok sc = true -> sc <> expected ->
    verdict name expected c sc (Er (EWrongSignature name)).

(** The outcome of [read] with the slice replaced by its bytes. *)
Definition seen (r : result slice rs_error) : result (list Z) rs_error :=
  match r with Ok s => Ok (sl_bytes s) | Er x => Er x end.

(** A step from [w] to [w'] that concerns the cells in [P] only: all other
    cells keep their bytes and write position, readers of other cells keep what
    they have cached, no directory disappears. *)
Definition touches (P : cell -> Prop) (w w' : world) : Prop :=
  (forall id k, ~ P (CMem id k) ->
     w_streams w' id k = w_streams w id k /\ w_resources w' id k = w_resources w id k) /\
  (forall k, ~ P (CFile k) -> w_files w' k = w_files w k) /\
  (forall id p, ~ P (CFile (key_of p)) -> w_maps w' id p = w_maps w id p) /\
  w_next w' = w_next w /\
  (forall k, w_dirs w k = true -> w_dirs w' k = true).

(** The cells of a resource and its schema. *)
Definition cells_of (st : storage) (name : string) (c : cell) : Prop :=
  c = cell_at st name \/ c = cell_at st (schema_name name).

(** Nobody has used the name: nothing stored or cached in memory, nothing
    mapped by this file storage. *)
Definition unused (st : storage) (name : string) (w : world) : Prop :=
  match st with
  | MemStorage id _ => w_streams w id (res_key st name) = None /\ w_resources w id (res_key st name) = None
  | FileStorage id _ => w_maps w id (res_path st name) = None
  end.
Definition fresh_name (st : storage) (name : string) (w : world) : Prop :=
  unused st name w /\ unused st (schema_name name) w.

(** File storage cannot hold an empty schema (an empty file cannot be mapped). *)
Definition schema_ok (st : storage) (schema : list Z) : Prop :=
  utf8_ok schema = true /\ bytes_ok schema /\ len schema <= isize_max /\ (is_file st = true -> schema <> []).
Definition data_ok (d : list Z) : Prop := bytes_ok d /\ len d + 16 <= isize_max.

(** Programs that use storages through their interface only, in any order and
    depending on anything they have read. *)
Inductive api : forall A, M A -> Prop :=
| api_ret A (a : A) : api A (mret a)
| api_lift A (o : outcome A) : api A (lift o)
| api_bind A B (m : M A) (f : A -> M B) : api A m -> (forall a, api B (f a)) -> api B (mbind m f)
| api_mem_new base : api _ (mem_new base)
| api_file_new base : api _ (file_new base)
| api_exists st name : api _ (exists_ st name)
| api_read st name : api _ (read_resource st name)
| api_create st name : api _ (create_output_stream st name)
| api_write s d : api _ (write_all s d)
| api_seek s : api _ (seek_start s).
Arguments api {A} m.

(** Mappings are never empty; every program keeps this (StorageMore.api_keeps). *)
Definition maps_ok (w : world) : Prop := forall id p l, w_maps w id p = Some l -> 0 < l.

(** Bytes as they can be stored: byte values, at most isize::MAX of them. *)
Definition stored_ok (c : list Z) : Prop := bytes_ok c /\ len c <= isize_max.

(** The value of the size header. *)
Definition header (c : list Z) : Z := le_val (firstn 8 c).

(** A new process opens a file storage at [base] and reads a resource. *)
Definition fresh_read (b : build) (e : endian) (base name : string) (expected : list Z) (w : world)
    : outcome (result slice rs_error) :=
  fst ((let! st := file_new base in read b e st name expected) (restart w)).

(** Files contain bytes. *)
Definition disk_ok (w : world) : Prop := forall k c, w_files w k = Some c -> stored_ok c.

(** Resource names as generated from a flatdata schema: nonempty, without '/'
    and without '.'. *)
Fixpoint no_dot (s : string) : bool :=
  match s with EmptyString => true | String c r => negb (Ascii.eqb c "."%char) && no_dot r end.
Definition identifier (n : string) : Prop := n <> ""%string /\ no_slash n = true /\ no_dot n = true.

(** Two storages are (in) different directories or different memory storages. *)
Definition apart (st st' : storage) : Prop :=
  match st, st' with
  | MemStorage i p, MemStorage i' p' => i <> i' \/ key_of p <> key_of p'
  | FileStorage _ p, FileStorage _ p' => key_of p <> key_of p'
  | _, _ => True
  end.

(** A stream for the name can be created in file storage: the name is not a
    directory, and either it is a plain name and the directory of the storage
    exists or can be created, or all directories involved exist. *)
Definition base_ready (base : string) (w : world) : Prop :=
  is_dir (key_of base) w = true \/
  forall n, w_files w (fst (key_of base), firstn n (snd (key_of base))) = None.
Definition ready (st : storage) (name : string) (w : world) : Prop :=
  match st with
  | MemStorage _ _ => True
  | FileStorage _ base =>
      is_dir (res_key st name) w = false /\
      (valid_name name /\ base_ready base w \/
       is_dir (key_of base) w = true /\ is_dir (parent (res_key st name)) w = true)
  end.

Definition unblocked (st : storage) (name : string) (w : world) : Prop :=
  ready st name w /\ ready st (schema_name name) w.

(** The call returned an error or the process died in it. *)
Definition failed {A} (o : outcome (result A io_kind)) : Prop := (exists k, o = Ret (Er k)) \/ o = Crash.

(** The resource exists (for [exists_]). *)
Definition present (st : storage) (name : string) (w : world) : bool :=
  match st with
  | MemStorage id _ => match w_resources w id (res_key st name) with Some _ => true | None =>
                       match w_streams w id (res_key st name) with Some _ => true | None => false end end
  | FileStorage _ _ => on_disk (res_key st name) w
  end.

(** Names that do not clash, also not through their schema resources. *)
Definition unrelated (n m : string) : Prop :=
  n <> m /\ n <> schema_name m /\ m <> schema_name n.

(** Nothing about resource [m] of [st] is different in [w']. *)
Definition undisturbed (st : storage) (m : string) (w w' : world) : Prop :=
  forall n, n = m \/ n = schema_name m ->
    bytes_at (cell_at st n) w' = bytes_at (cell_at st n) w /\
    forall x, finds st w' n x <-> finds st w n x.

(** Vocabulary: what a process sees that reads a resource while another process
    is writing it.  The writer makes system calls one after the other, and each
    write may be seen half done; the reader looks at the disk between. *)
From Verif Require Import Base Codec CodecSpec Structs StructsSpec Views ViewsSpec.
From Verif Require Import Storage PathFacts StorageSpec Writers WritersSpec MultiViews MultiSpec.
Local Open Scope list_scope.
Local Open Scope Z_scope.

(** A moment of an execution without failures: [n] system calls are done, and
    [j] bytes of the next one if it is a write. *)
Record moment := At { calls_done : nat; bytes_done : nat }.
Definition not_after (x y : moment) : Prop :=
  (calls_done x < calls_done y)%nat \/
  (calls_done x = calls_done y /\ (bytes_done x <= bytes_done y)%nat).

(** The world at a moment of the execution of [m] that starts in [w]: the one
    that is left if the process is killed there.  After the end of the
    execution nothing changes any more. *)
Definition stop_at (x : moment) (w : world) : world :=
  set_faults (repeat FOk (calls_done x) ++ [FCrash (bytes_done x)]) w.
Definition world_at {A} (m : M A) (w : world) (x : moment) : world := snd (m (stop_at x w)).

Section Env.
Variables (b : build) (e : endian).

(** read_and_check_schema (storage.rs:92-126) in a new process with a file
    storage at [base], where [W 0], [W 1], ... are the worlds at the times of
    its steps: it looks for the data file and maps it, looks for the schema file
    and maps it, reads the size, and compares the schemas.  A mapping shows the
    content the file has when it is read. *)
Definition read_during (W : nat -> world) (base name : string) (expected : list Z)
    : outcome (result slice rs_error) :=
  let st := FileStorage 0 base in
  let io k := EIo k name in
  x <- fst (path_exists (res_key st name) (restart (W 0%nat))) ;;
  if negb x then Ret (Er (io KNotFound)) else
  r <- fst (mmap_read 0 (res_path st name) (restart (W 1%nat))) ;;
  match r with
  | Er k => Ret (Er (io k))
  | Ok d1 =>
      x <- fst (path_exists (res_key st (schema_name name)) (restart (W 2%nat))) ;;
      if negb x then Ret (Er (io KNotFound)) else
      r <- fst (mmap_read 0 (res_path st (schema_name name)) (restart (W 3%nat))) ;;
      match r with
      | Er k => Ret (Er (io k))
      | Ok s1 =>
          d <- mapped (res_key st name) (sl_len d1) (W 4%nat) ;;
          s <- mapped (res_key st (schema_name name)) (sl_len s1) (W 5%nat) ;;
          check_resource b e name expected d s
      end
  end.

(** The bytes of the result at a later time: [n] bytes behind the size field of
    the mapping. *)
Definition look (w : world) (base name : string) (n : Z) : outcome (list Z) :=
  d <- mapped (res_key (FileStorage 0 base) name) (n + SIZE_OF_SIZE_TYPE + PADDING_SIZE) w ;;
  Ret (firstn (Z.to_nat n) (skipn (Z.to_nat SIZE_OF_SIZE_TYPE) (sl_mem d))).
End Env.

(** A reader with schedule [W] that accepted the data: they are a beginning of
    the final data [D] and do not change any more; all of them or nothing unless
    the size field was seen half written. *)
Definition accepted (D : list Z) (torn : Prop) (schema expected : list Z) (W : nat -> world) (base name : string) (sl : slice) : Prop :=
  (exists q, schema = expected ++ q) /\ slice_ok sl /\ sl_len sl <= len D /\
  sl_bytes sl = firstn (Z.to_nat (sl_len sl)) D /\
  (~ torn -> sl_len sl = 0 \/ sl_bytes sl = D) /\
  forall i, (4 <= i)%nat -> look (W i) base name (sl_len sl) = Ret (sl_bytes sl).

(** No older version of the resource is on the disk. *)
Definition absent (st : storage) (name : string) (w : world) : Prop :=
  w_files w (res_key st name) = None /\ w_files w (res_key st (schema_name name)) = None.

(** Sessions in which only the vector is used. *)
Fixpoint only_grows (ops : list ev_op) : Prop :=
  match ops with [] => True | EGrow _ :: r => only_grows r | EOther _ :: _ => False end.
Fixpoint only_mgrows (ops : list mv_op) : Prop :=
  match ops with [] => True | MGrow _ :: r => only_mgrows r | MOther _ :: _ => False end.

(** Opening a multivector: first the index, then the data (archive.rs:615-625). *)
Definition open_multi_during (b : build) (e : endian) (W : nat -> world) (base name : string) (schema : list Z)
    : outcome (result (slice * slice) rs_error) :=
  r <- read_during b e W base (index_name name) (index_schema schema) ;;
  match r with
  | Er x => Ret (Er x)
  | Ok i =>
      r <- read_during b e (fun n => W (6 + n)%nat) base name schema ;;
      match r with Er x => Ret (Er x) | Ok d => Ret (Ok (i, d)) end
  end.

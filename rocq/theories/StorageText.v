(** Model of the Debug implementations of storages: derive(Debug) of
    MemoryResourceStorage (src/memstorage.rs:34-38), Debug of MemoryStorage
    (src/memstorage.rs:22-31), derive(Debug) of FileResourceStorage and of
    MemoryMappedFileStorage (src/filestorage.rs:14-17, 37-41), all with [{:?}].
    Texts are lists of characters; the bytes of a path are its characters (ASCII). *)
From Coq Require Import Sorted.
From Verif Require Import Base Storage Text ErrorText.
Local Open Scope string_scope.
Local Open Scope list_scope.
Local Open Scope Z_scope.

(** Maps are functions in the model.  [l] are the keys of the map. *)
Definition keys_are {K V} (l : list K) (m : K -> option V) : Prop := NoDup l /\ forall k, In k l <-> m k <> None.
(** The order of String: by bytes.  [l] are the entries of the map in this order. *)
Definition before (p q : string) : Prop := String.compare p q = Lt.
Definition entries_are (l : list (string * Z)) (m : string -> option Z) : Prop :=
  StronglySorted before (map fst l) /\ forall p n, In (p, n) l <-> m p = Some n.

(** With the numbers of streams and resources. *)
Definition mem_text (v : std) (streams resources : nat) (base : string) : list Z :=
  str "MemoryResourceStorage { storage: MemoryStorage { num_streams: " ++ str (dec (Z.of_nat streams)) ++
  str ", num_resources: " ++ str (dec (Z.of_nat resources)) ++ str " }, path: " ++ quoted v (str base) ++ str " }".

(** With the paths of the mapped files and the lengths of the mappings. [mm] is
    Debug of memmap::Mmap for the mapping of a file (it has its address and length). *)
Fixpoint commas (l : list (list Z)) : list Z :=
  match l with [] => [] | [x] => x | x :: l => x ++ str ", " ++ commas l end.
Definition file_text (v : std) (mm : string -> Z -> list Z) (maps : list (string * Z)) (base : string) : list Z :=
  str "FileResourceStorage { storage: MemoryMappedFileStorage { maps: RefCell { value: {" ++
  commas (map (fun x => quoted v (str (fst x)) ++ str ": " ++ mm (fst x) (snd x)) maps) ++
  str "} } }, path: " ++ quoted v (str base) ++ str " }".

Inductive storage_says (v : std) (mm : string -> Z -> list Z) (w : world) : storage -> list Z -> Prop :=
| says_mem id base ks kr : keys_are ks (w_streams w id) -> keys_are kr (w_resources w id) ->
    storage_says v mm w (MemStorage id base) (mem_text v (List.length ks) (List.length kr) base)
| says_file id base maps : entries_are maps (w_maps w id) ->
    storage_says v mm w (FileStorage id base) (file_text v mm maps base).

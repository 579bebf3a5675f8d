(** Model of paths as the standard library and a POSIX system treat them, without
    links: what the calls of src/filestorage.rs and the maps of src/memstorage.rs do
    with [self.path.join(resource_name)].  Storage.v has keys (lists of components)
    instead, in which [..] is an ordinary name. *)
From Verif Require Import Base Storage.
Local Open Scope list_scope.
Local Open Scope Z_scope.

(** * Keys of the maps of memory storages *)
(** std::path::Path::components; comparing PathBufs compares these
    (memstorage.rs:17-19). *)
Inductive component := RootDir | CurDir | ParentDir | Normal (s : string).
Definition component_of (s : string) : component := if String.eqb s ".." then ParentDir else Normal s.
(** A [.] is kept at the beginning of a path only. *)
Definition components (path : string) : list component :=
  (if is_absolute path then [RootDir]
   else match split_slash path with s :: _ => if String.eqb s "." then [CurDir] else [] | [] => [] end)
  ++ map component_of (filter real_component (split_slash path)).

(** * Trees *)
(** A directory tree, by the names on the way from the root. *)
Inductive node := NFile (c : list Z) | NDir.
Definition tree : Type := list string -> option node.
Definition tset (l : list string) (x : node) (t : tree) : tree := fun l' => if comps_eqb l' l then Some x else t l'.
Definition dir_at (t : tree) (l : list string) : bool := match t l with Some NDir => true | _ => false end.

(** Path resolution from the directory [at_]: all but the last step have to lead to
    directories.  Whether there is something at the end is for the callers to see. *)
Fixpoint walk (t : tree) (at_ : list string) (segs : list string) : result (list string) io_kind :=
  match segs with
  | [] => Ok at_
  | s :: r =>
      match t at_ with
      | None => Er KNotFound
      | Some (NFile _) => Er KOther
      | Some NDir =>
          if negb (real_component s) then walk t at_ r
          else if String.eqb s ".." then walk t (removelast at_) r
          else walk t (at_ ++ [s]) r
      end
  end.

(** A path as the system gets it: absolute or not, and what is between slashes. *)
Record path := mkPath { p_abs : bool; p_segs : list string }.
Definition path_of (s : string) : path := mkPath (is_absolute s) (split_slash s).
Definition empty_path (p : path) : bool := negb (p_abs p) && forallb (String.eqb "") (p_segs p).
Section Calls.
(** The working directory. *)
Variable cwd : list string.
Definition start (p : path) : list string := if p_abs p then [] else cwd.
Definition resolve (t : tree) (p : path) : result (list string) io_kind :=
  if empty_path p then Er KNotFound else walk t (start p) (p_segs p).

(** stat: Path::exists and Path::is_dir *)
Definition sys_exists (t : tree) (p : path) : bool :=
  match resolve t p with Ok l => match t l with Some _ => true | None => false end | Er _ => false end.
Definition sys_is_dir (t : tree) (p : path) : bool :=
  match resolve t p with Ok l => dir_at t l | Er _ => false end.
(** File::open and Mmap::map, filestorage.rs:22-23 *)
Definition sys_map (t : tree) (p : path) : result (list Z) io_kind :=
  match resolve t p with
  | Er k => Er k
  | Ok l =>
      match t l with
      | None => Er KNotFound
      | Some NDir => Er KOther
      | Some (NFile c) => if len c =? 0 then Er KInvalidInput else Ok c
      end
  end.
(** File::create, filestorage.rs:86; with a slash at the end it always fails (on Linux
    with EISDIR). *)
Definition sys_create (t : tree) (p : path) : result tree io_kind :=
  match resolve t p with
  | Er k => Er k
  | Ok l => if dir_at t l then Er KOther else Ok (tset l (NFile []) t)
  end.
(** mkdir: slashes at the end do not count. *)
Fixpoint drop_slashes (segs : list string) : list string :=
  match segs with
  | [] => []
  | s :: r => match drop_slashes r with [] => if String.eqb s "" then [] else [s] | r' => s :: r' end
  end.
Definition sys_mkdir (t : tree) (p : path) : result tree io_kind :=
  if empty_path p then Er KNotFound
  else match walk t (start p) (drop_slashes (p_segs p)) with
  | Er k => Er k
  | Ok l => match t l with Some _ => Er KAlreadyExists | None => Ok (tset l NDir t) end
  end.

(** Path::parent: without the last component, and without [.] and slashes at the end,
    except for a [.] at the beginning. *)
Fixpoint trim (abs : bool) (rsegs : list string) : list string :=
  match rsegs with
  | [] => []
  | s :: r => if real_component s then s :: r
              else match r with [] => if negb abs && String.eqb s "." then [s] else [] | _ => trim abs r end
  end.
Definition parent_path (p : path) : option path :=
  match trim (p_abs p) (rev (p_segs p)) with
  | [] => None
  | _ :: r => Some (mkPath (p_abs p) (rev (trim (p_abs p) r)))
  end.

(** fs::create_dir_all, std::fs::DirBuilder; [fuel]: the number of ancestors. *)
Fixpoint mkdirs (fuel : nat) (t : tree) (p : path) : result unit io_kind * tree :=
  if empty_path p then (Ok tt, t)
  else match sys_mkdir t p with
  | Ok t' => (Ok tt, t')
  | Er KNotFound =>
      match parent_path p, fuel with
      | Some q, S fuel =>
          match mkdirs fuel t q with
          | (Er k, t') => (Er k, t')
          | (Ok _, t') =>
              match sys_mkdir t' p with
              | Ok t'' => (Ok tt, t'')
              | Er k => (if sys_is_dir t' p then Ok tt else Er k, t')
              end
          end
      | _, _ => (Er KOther, t)
      end
  | Er k => (if sys_is_dir t p then Ok tt else Er k, t)
  end.

(** The trees before, between and after these calls. *)
Fixpoint mkdirs_seen (fuel : nat) (t : tree) (p : path) : list tree :=
  t :: (if empty_path p then []
        else match sys_mkdir t p with
        | Ok t' => [t']
        | Er KNotFound =>
            match parent_path p, fuel with
            | Some q, S fuel =>
                mkdirs_seen fuel t q ++
                match mkdirs fuel t q with
                | (Ok _, t') => match sys_mkdir t' p with Ok t'' => [t''] | Er _ => [] end
                | (Er _, _) => []
                end
            | _, _ => []
            end
        | Er _ => []
        end).

(** * FileResourceStorage with these calls *)
(** exists, filestorage.rs:59-61 *)
Definition tree_exists (t : tree) (base name : string) : bool := sys_exists t (path_of (path_join base name)).
(** read_resource, filestorage.rs:63-79, of a new storage *)
Definition tree_read (t : tree) (base name : string) : result (list Z) io_kind :=
  let p := path_of (path_join base name) in
  if sys_exists t p then sys_map t p else Er KNotFound.
(** create_output_stream, filestorage.rs:81-88 *)
Definition tree_create (t : tree) (base name : string) : result unit io_kind * tree :=
  let p := path_of base in
  let (r, t1) := if sys_exists t p then (Ok tt, t) else mkdirs (S (List.length (p_segs p))) t p in
  match r with
  | Er k => (Er k, t1)
  | Ok _ => match sys_create t1 (path_of (path_join base name)) with Er k => (Er k, t1) | Ok t2 => (Ok tt, t2) end
  end.
End Calls.

(** Vocabulary for paths. *)
From Verif Require Import Base Storage Paths.
Local Open Scope list_scope.
Local Open Scope Z_scope.

(** A path without [..] between its slashes; one that also ends with a name. *)
Definition no_parent (s : string) : Prop := ~ In ".."%string (split_slash s).
Definition ends_with_name (s : string) : Prop := exists i l, split_slash s = i ++ [l] /\ real_component l = true.
(** Its last component is [.], maybe followed by slashes. *)
Definition ends_with_dot (s : string) : Prop := exists i n, split_slash s = i ++ "."%string :: repeat ""%string n.
(** The names in a path. *)
Definition names_of (s : string) : list string := snd (key_of s).

(** A tree: with a root, and directories above of everything. *)
Record tree_ok (t : tree) : Prop := {
  tree_root : t [] = Some NDir;
  tree_above : forall l s, t (l ++ [s]) <> None -> t l = Some NDir }.
(** The disk of a world is the tree below [at_]; [a]: the world uses absolute paths. *)
Definition shows (a : bool) (at_ : list string) (t : tree) (w : world) : Prop :=
  forall l, w_files w (a, l) = match t (at_ ++ l) with Some (NFile c) => Some c | _ => None end /\
            is_dir (a, l) w = dir_at t (at_ ++ l).

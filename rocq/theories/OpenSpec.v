(** Vocabulary for calls that read, in any world (C100). *)
From Verif Require Import Base Storage PathFacts StorageSpec Writers WritersSpec MultiViews Archives ArchiveSpec.
Local Open Scope list_scope.
Local Open Scope Z_scope.

(** The size header of the resource overflows in usize when it is checked. *)
Definition overflows (p : place) (n : string) : Prop := exists c sc,
  found p n (Some c) /\ found p (schema_name n) (Some sc) /\ 16 <= len c /\ 2 ^ 64 <= header c + 16.
(** [Q] holds for a resource that open reads, in the archive or a sub-archive. *)
Fixpoint somewhere (Q : place -> string -> Prop) (a : adesc) (p : place) {struct a} : Prop :=
  (exists n, In n (part_names a) /\ Q p n) \/
  (fix go (l : list (string * adesc * bool)) : Prop :=
     match l with
     | [] => False
     | (n, a', _) :: l => somewhere Q a' (sub_place p n) \/ go l
     end) (ad_subs a).
(** There is such a resource among those that open looks at: in the archive, or in a
    sub-archive whose required parts are fine. *)
Fixpoint trips (a : adesc) (p : place) {struct a} : Prop :=
  (exists n, In n (part_names a) /\ overflows p n) \/
  (fix go (l : list (string * adesc * bool)) : Prop :=
     match l with
     | [] => False
     | (n, a', _) :: l => (checks a' (sub_place p n) /\ trips a' (sub_place p n)) \/ go l
     end) (ad_subs a).
(** A file was cut since this storage mapped it. *)
Definition cut_off (st : storage) (n : string) (w : world) : Prop := exists l,
  is_file st = true /\ w_maps w (st_id st) (res_path st n) = Some l /\ len (file_content (res_key st n) w) < l.

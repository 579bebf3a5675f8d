(** Vocabulary for archives on narrow targets (C96). *)
From Verif Require Import Base Codec CodecSpec Structs StructsSpec Views ViewsSpec.
From Verif Require Import Storage PathFacts StorageSpec Writers WritersSpec MultiViews MultiSpec Archives ArchiveSpec.
Local Open Scope list_scope.
Local Open Scope Z_scope.

(** What a reader with W bits takes for the resource with data [d]: the header is
    right up to a multiple of 2^W. *)
Definition holds_w (W : Z) (p : place) (n : string) (schema d : list Z) : Prop :=
  exists h pad, found p n (Some (le_bytes 8 h ++ d ++ pad)) /\ len pad = 8 /\ 0 <= h < 2 ^ 64 /\ h mod 2 ^ W = len d /\
    found p (schema_name n) (Some schema) /\ utf8_ok schema = true.

(** As [part], [opened] etc. of ArchiveSpec.v *)
Definition part_w W (strict : bool) (p : place) (opt : bool) (n : string) (schema : list Z) (y : option slice) : Prop :=
  match y with
  | Some sl => holds_w W p n schema (sl_bytes sl) /\ slice_ok sl /\ len (sl_mem sl) = sl_len sl + 8
  | None => opt = true /\ (strict = true -> forall d, ~ holds_w W p n schema d)
  end.
Definition typed_part_w W strict p (r : typed_res) := part_w W strict p (tr_opt r) (tr_name r) (tr_schema r).
Definition raw_part_w W strict p (r : raw_res) := part_w W strict p (rr_opt r) (rr_name r) (rr_schema r).
Definition multi_part_w W strict p (r : multi_res) (y : option slice * option slice) : Prop :=
  part_w W strict p (mr_opt r) (mr_index r) (index_schema (mr_schema r)) (fst y) /\
  part_w W strict p (mr_opt r) (mr_name r) (mr_schema r) (snd y).
Fixpoint opened_w (W : Z) (strict : bool) (a : adesc) (p : place) (x : archive) {struct a} : Prop :=
  let 'mkArchive name schema structs vectors multis raws subs := a in
  (exists d, holds_w W p (signature_name name) schema d) /\
  Forall2 (typed_part_w W strict p) structs (ar_structs x) /\
  Forall2 (typed_part_w W strict p) vectors (ar_vectors x) /\
  Forall2 (multi_part_w W strict p) multis (ar_multis x) /\
  Forall2 (raw_part_w W strict p) raws (ar_raws x) /\
  (fix go (l : list (string * adesc * bool)) (ys : list (option archive)) : Prop :=
     match l, ys with
     | [], [] => True
     | (n, a', opt) :: l, y :: ys =>
         match y with
         | Some x' => opened_w W strict a' (sub_place p n) x'
         | None => opt = true /\ (strict = true -> forall x', ~ opened_w W strict a' (sub_place p n) x')
         end /\ go l ys
     | _, _ => False
     end) subs (ar_subs x).

(** The process can hold the file. *)
Definition readable_w (W : Z) (p : place) (n : string) : Prop :=
  readable p n /\ forall c, found p n (Some c) -> len c <= 2 ^ (W - 1) - 1.
(** The size in the header, without its high bits, does not overflow. *)
Definition tame_w (W : Z) (p : place) (n : string) : Prop :=
  forall c, found p n (Some c) -> 16 <= len c -> header c mod 2 ^ W + 16 < 2 ^ W.
(** The size in the header has no high bits. *)
Definition low (W : Z) (p : place) (n : string) : Prop :=
  forall c, found p n (Some c) -> 16 <= len c -> header c + 16 < 2 ^ W.


(** Everything [x] shows is shown by [y], too. *)
Definition same_bytes (sl sl' : slice) : Prop := sl_len sl = sl_len sl' /\ sl_bytes sl = sl_bytes sl'.
Definition kept {A} (R : A -> A -> Prop) (y y' : option A) : Prop := forall s, y = Some s -> exists s', y' = Some s' /\ R s s'.
Fixpoint within (x y : archive) {struct x} : Prop :=
  let 'mkOpened ss vs ms rs us := x in
  Forall2 (kept same_bytes) ss (ar_structs y) /\ Forall2 (kept same_bytes) vs (ar_vectors y) /\
  Forall2 (fun m m' => kept same_bytes (fst m) (fst m') /\ kept same_bytes (snd m) (snd m')) ms (ar_multis y) /\
  Forall2 (kept same_bytes) rs (ar_raws y) /\
  (fix go (l l' : list (option archive)) : Prop :=
     match l, l' with
     | [], [] => True
     | y :: l, y' :: l' =>
         match y with Some u => exists u', y' = Some u' /\ within u u' | None => True end /\ go l l'
     | _, _ => False
     end) us (ar_subs y).

(** Vocabulary: what is left on the disk after a power failure. *)
From Verif Require Import Base Codec CodecSpec Structs StructsSpec Views ViewsSpec.
From Verif Require Import Storage PathFacts StorageSpec Writers WritersSpec MultiViews MultiSpec.
From Verif Require Import Archives ArchiveSpec BuilderSpec MomentSpec DuringSpec.
Local Open Scope list_scope.
Local Open Scope Z_scope.

(** The code never asks for anything to be made durable (there is no sync_all
    and no sync_data in it).  So each file may have kept its own beginning of
    what was written to it, also long after the process has ended. *)
Definition after_power_failure {A} (m : M A) (w left : world) : Prop :=
  forall k, exists x, w_files left k = w_files (world_at m w x) k.

(** All or nothing. *)
Definition all_or_nothing (D : list Z) (sl : slice) : Prop :=
  slice_ok sl /\ (sl_bytes sl = D \/ sl_bytes sl = []).

(** What an archive shows afterwards; [A] is what the builder wrote. *)
Definition left_bytes (o : option (list Z)) (y : option slice) : Prop :=
  match y with Some sl => slice_ok sl /\ o = Some (sl_bytes sl) | None => True end.
Definition left_vec (r : typed_res) (o : vslot) (y : option slice) : Prop :=
  match y with
  | None => True
  | Some sl =>
      match o with
      | VSet d => slice_ok sl /\ sl_bytes sl = d
      | VClosed l => exists D, array_of (tr_struct r) D (elements (tr_struct r) l) /\
          records (tr_struct r) D = elements (tr_struct r) l /\ all_or_nothing D sl
      | _ => False
      end
  end.
Definition left_mul (r : multi_res) (o : mslot) (y : option slice * option slice) : Prop :=
  y = (None, None) \/
  exists l I D, o = MClosed l /\ final_multi r l I D /\
    match fst y with Some i => all_or_nothing I i | None => True end /\
    match snd y with Some d => all_or_nothing D d | None => True end.
Definition left_plan (a : adesc) (base : string) (A : plan) (x : archive) : Prop :=
  plan_shown (fun _ _ => left_bytes) (fun _ => left_vec) (fun _ => left_mul) a base A x.

(** A file in which some of the written bytes are lost, but not the length. *)
Definition with_holes (c c' : list Z) : Prop := Forall2 (fun x y => y = x \/ y = 0) c c'.

(** Vocabulary for multivectors on narrow targets (C93). *)
From Verif Require Import Base Codec Structs Views Storage Writers Conc ConcSpec.
Local Open Scope list_scope.
Local Open Scope Z_scope.

(** The bytes of an index whose entries lost the high bits: where each list of
    items starts, counted from [a], and where the last one ends. *)
Definition narrow_index (W size bits a : Z) (ls : list (list Z)) : list Z :=
  List.concat (map (fun x => record_bytes (index_struct size bits) [x mod 2 ^ W]) (starts a ls)).

(** Vocabulary: two processes that create an archive at the same place. *)
From Verif Require Import Base Codec Storage StorageSpec.
Local Open Scope list_scope.
Local Open Scope Z_scope.

(** create_archive (storage.rs:200-220) in a new process with a file storage at
    [base]: it looks for the signature at one time, in the world [W1], and if
    there is none, it writes at a later time, from the world [W2] on. *)
Definition create_between (b : build) (e : endian) (id : nat) (base aname : string) (aschema : list Z) (W1 W2 : world)
    : outcome (result unit rs_error) * world :=
  let st := FileStorage id base in
  let n := signature_name aname in
  match fst (exists_ st n (restart W1)) with
  | Ret true => (Ret (Er (EIo KAlreadyExists n)), restart W2)
  | Ret false => mtry (fun k => EIo k n) (write b e st n aschema []) (fun _ => mret (Ok tt)) (restart W2)
  | Panic => (Panic, restart W2) | UB => (UB, restart W2) | Crash => (Crash, restart W2)
  end.

(** Model of compute_diff (src/storage.rs:373-383) and of the descriptions of
    errors (src/error.rs:55-65).  Texts are lists of bytes.  The crate [diff] is
    not modelled: what [diff::lines] returns is an argument. *)
From Coq Require Export String.
From Verif Require Import Base Storage.
Local Open Scope string_scope.
Local Open Scope list_scope.
Local Open Scope Z_scope.

(** [diff::Result] *)
Inductive edit := Left (l : list Z) | Both (l r : list Z) | Right (r : list Z).

(** The closure, storage.rs:376-380 *)
Definition edit_line (x : edit) : list Z :=
  match x with
  | Left l => 45 :: l
  | Both l _ => 32 :: l
  | Right r => 43 :: r
  end.
(** [join("\n")], storage.rs:382 *)
Fixpoint join_lines (l : list (list Z)) : list Z :=
  match l with
  | [] => []
  | [x] => x
  | x :: r => x ++ 10 :: join_lines r
  end.
Definition compute_diff (lines : list edit) : list Z := join_lines (map edit_line lines).

(** error.rs:55-65 *)
Definition description (x : rs_error) : string :=
  match x with
  | EIo _ _ => "resource io error"
  | EMissingSchema _ => "schema of resource is missing"
  | EUnexpectedDataSize => "resource has unexpected size"
  | EUtf8 => "utf8 error in schema"
  | EWrongSignature _ => "schema is not matching expected schema"
  end.

(** Vocabulary for texts of errors. *)
From Verif Require Import Base Storage ErrorText.
Local Open Scope list_scope.
Local Open Scope Z_scope.

(** A text of characters. *)
Definition chars (s : list Z) : Prop := Forall (fun c => 0 <= c < 1114112) s.
Definition error_chars (x : error) : Prop :=
  match x with
  | Io err name => chars err /\ chars name
  | Utf8Error err => chars err
  | MissingSchema name => chars name
  | WrongSignature name diff => chars name /\ chars diff
  | UnexpectedDataSize => True
  end.
(** It fits on a line: there are no control characters. *)
Definition one_line (s : list Z) : Prop := Forall (fun c => 32 <= c) s.
(** The texts of the standard library are like that. *)
Definition std_lines (x : error) : Prop :=
  match x with Io err _ | Utf8Error err => one_line err | _ => True end.
(** ASCII characters that need no escape. *)
Definition plain (s : list Z) : Prop := Forall (fun c => 32 <= c < 127 /\ c <> 34 /\ c <> 39 /\ c <> 92) s.
(** [s] is a part of [t]. *)
Definition contains (t s : list Z) : Prop := exists x y, t = x ++ s ++ y.
(** The value an error of the model stands for: with the texts of errors of the
    standard library and the diff. *)
Definition stands_for (x : rs_error) (y : error) : Prop :=
  match x, y with
  | EIo _ n, Io _ n' => n' = str n
  | EUtf8, Utf8Error _ => True
  | EMissingSchema n, MissingSchema n' => n' = str n
  | EWrongSignature n, WrongSignature n' _ => n' = str n
  | EUnexpectedDataSize, UnexpectedDataSize => True
  | _, _ => False
  end.
